(** Proofs about building a program from its configuration. *)
From stdpp Require Import gmap strings.
From Coq Require Import Ascii ZArith List Bool Lia.
From Verif Require Import Base RStr ConfigModel ProcessModel EnvModel SpecEnv.
Import ListNotations.
Local Open Scope string_scope.
Local Open Scope list_scope.

(** * Users and groups *)

Theorem map_id_spec {T} id name (by_id : Z -> option (option T)) by_name t :
  map_id id name by_id by_name = Ok t <-> selects by_id by_name id name t.
Proof.
  unfold map_id. destruct id as [i|]; destruct name as [n|]; cbn.
  - split; [discriminate|]. intros H; inversion H.
  - split.
    + destruct (by_id i) as [[t'|]|] eqn:E; cbn; try discriminate. intros H; inversion H; subst. constructor; auto.
    + intros H; inversion H; subst. match goal with E : by_id i = _ |- _ => rewrite E end. reflexivity.
  - split.
    + destruct (by_name n) as [[t'|]|] eqn:E; cbn; try discriminate. intros H; inversion H; subst. constructor; auto.
    + intros H; inversion H; subst. match goal with E : by_name n = _ |- _ => rewrite E end. reflexivity.
  - split.
    + destruct (by_id 0%Z) as [[t'|]|] eqn:E; cbn; try discriminate. intros H; inversion H; subst. constructor; auto.
    + intros H; inversion H; subst. match goal with E : by_id 0%Z = _ |- _ => rewrite E end. reflexivity.
Qed.
Theorem map_id_err {T} id name (by_id : Z -> option (option T)) by_name :
  map_id id name by_id by_name = Err UserGroupInvalid <-> forall t, ~ selects by_id by_name id name t.
Proof.
  split.
  - intros E t H. apply map_id_spec in H. congruence.
  - intros H. destruct (map_id id name by_id by_name) as [t|e] eqn:E.
    + exfalso. apply (H t). apply map_id_spec. auto.
    + unfold map_id in E. destruct id, name; try congruence;
        repeat match type of E with context [match ?x with _ => _ end] => destruct x end; congruence.
Qed.

(** * Environment maps *)

Lemma copy_flat w maps env : copy_from_config w maps env = fold_left (copy_entry w) (concat maps) env.
Proof.
  unfold copy_from_config. revert env. induction maps as [|m r IH]; intros env; cbn; [reflexivity|].
  rewrite fold_left_app. apply IH.
Qed.

Lemma copy_keys w es : forall env k v, fold_left (copy_entry w) es env !! k = Some v ->
  env !! k = Some v \/ exists o, In (k, o) es.
Proof.
  induction es as [|[k' o] r IH]; intros env k v H; cbn in *; [auto|].
  apply IH in H. destruct H as [H|[o' H]]; [|right; eauto].
  destruct (decide (k = k')) as [->|Hk]; [right; eauto|]. left.
  destruct o as [raw|]; cbn in H.
  - rewrite lookup_insert_ne in H by auto. auto.
  - destruct (w_env w k'); [rewrite lookup_insert_ne in H by auto|]; auto.
Qed.

Lemma copy_present w es : forall env k, is_Some (env !! k) -> is_Some (fold_left (copy_entry w) es env !! k).
Proof.
  induction es as [|[k' o] r IH]; intros env k H; cbn; [auto|]. apply IH.
  destruct o as [raw|]; cbn.
  - apply lookup_insert_is_Some'. auto.
  - destruct (w_env w k'); [apply lookup_insert_is_Some'|]; auto.
Qed.

Lemma copy_unchanged w es : forall env k, (forall o, In (k, o) es -> ~ binds w (k, o)) ->
  fold_left (copy_entry w) es env !! k = env !! k.
Proof.
  induction es as [|[k' o] r IH]; intros env k H; cbn; [reflexivity|].
  rewrite IH by (intros o' Ho'; apply H; right; auto).
  destruct (decide (k = k')) as [->|Hk].
  - specialize (H o (or_introl eq_refl)). destruct o as [raw|]; cbn in *; [exfalso; auto|].
    destruct (w_env w k'); [exfalso; apply H; congruence|reflexivity].
  - destruct o as [raw|]; cbn.
    + apply lookup_insert_ne; auto.
    + destruct (w_env w k'); [apply lookup_insert_ne|]; auto.
Qed.

Lemma default_lookup w k : get_default_env w !! k =
  if decide (In k nine) then Some (match w_env w k with Some v => v | None => "" end) else None.
Proof.
  unfold get_default_env, default_keys. cbn [fold_left].
  destruct (decide (In k nine)) as [H|H].
  - unfold nine in H. cbn in H.
    repeat (destruct H as [<-|H]; [repeat (rewrite lookup_insert || rewrite lookup_insert_ne by discriminate); reflexivity|]).
    destruct H.
  - repeat (rewrite lookup_insert_ne; [|intros <-; apply H; unfold nine; cbn; tauto]). apply lookup_empty.
Qed.

Lemma sanitised_lookup w u k : sanitise_env (get_default_env w) u !! k =
  if decide (In k nine) then Some (default_value w u k) else None.
Proof.
  unfold sanitise_env. destruct (decide (In k nine)) as [H|H].
  - assert (D := default_lookup w k). destruct (decide (In k nine)); [|contradiction].
    unfold nine in H. cbn in H. unfold default_value.
    repeat (destruct H as [<-|H]; [
      repeat (rewrite lookup_insert || rewrite lookup_insert_ne by discriminate); try exact D; reflexivity|]).
    destruct H.
  - repeat (rewrite lookup_insert_ne; [|intros <-; apply H; unfold nine; cbn; tauto]).
    rewrite default_lookup. destruct (decide (In k nine)); [contradiction|reflexivity].
Qed.

Lemma convert_present w maps u k : In k nine -> is_Some (convert_env w maps u !! k).
Proof.
  intros H. unfold convert_env. rewrite copy_flat. apply copy_present. rewrite sanitised_lookup.
  destruct (decide (In k nine)); [eauto|contradiction].
Qed.

(** * Environment strings *)

Lemma cstrings_ret msg l r : cstrings msg l = Ret r -> r = l /\ forall s, In s l -> has_nul s = false.
Proof.
  revert r. induction l as [|s l IH]; intros r H; cbn in H.
  - inversion H. split; [reflexivity|]. intros s [].
  - unfold cstring in H. destruct (has_nul s) eqn:E; cbn in H; [discriminate|].
    destruct (cstrings msg l) as [r'|m]; cbn in H; [|discriminate]. inversion H; subst.
    destruct (IH r' eq_refl) as [-> Hn]. split; [reflexivity|]. intros s' [<-|Hs']; auto.
Qed.
Lemma cstrings_panic msg l m : cstrings msg l = Panic m <-> m = msg /\ exists s, In s l /\ has_nul s = true.
Proof.
  induction l as [|s l IH]; cbn.
  - split; [discriminate|]. intros (_ & s & [] & _).
  - unfold cstring. destruct (has_nul s) eqn:E; cbn.
    + split; [intros H; inversion H; subst; split; eauto|]. intros (-> & _). reflexivity.
    + destruct (cstrings msg l) as [r'|m'] eqn:R; cbn.
      * split; [discriminate|]. intros (_ & s' & [<-|Hs'] & Hn); [congruence|].
        apply cstrings_ret in R. destruct R as [_ R]. rewrite (R _ Hs') in Hn. discriminate.
      * split.
        -- intros H. inversion H; subst. destruct (proj1 IH eq_refl) as (-> & s' & Hs' & Hn). split; eauto.
        -- intros (-> & s' & [<-|Hs'] & Hn); [congruence|]. f_equal.
           assert (K : Panic m' = Panic msg) by (apply IH; eauto). inversion K. reflexivity.
Qed.

Lemma flatten_presents w env l : any_order w -> flatten_to_strings w env = Ret l -> presents l env.
Proof.
  intros Ho H. unfold flatten_to_strings in H. apply cstrings_ret in H. destruct H as [-> _].
  intros e. rewrite in_map_iff. split.
  - intros ([k v] & <- & Hin). exists k, v. split; [|reflexivity].
    apply (Permutation_in _ (Ho _)) in Hin. apply elem_of_map_to_list. apply elem_of_list_In. auto.
  - intros (k & v & Hm & ->). exists (k, v). split; [reflexivity|].
    apply (Permutation_in _ (Permutation_sym (Ho _))). apply elem_of_list_In, elem_of_map_to_list. auto.
Qed.

Lemma variable_binding k v : no_eq k -> variable (binding k v) = k.
Proof.
  unfold binding, no_eq. induction k as [|c k IH]; intros H.
  - reflexivity.
  - change (variable (String c (k +:+ "=" +:+ v)) = String c k). cbn [variable].
    destruct (Ascii.eqb c "=") eqn:E.
    + exfalso. apply H. apply Ascii.eqb_eq in E. subst. left. reflexivity.
    + f_equal. apply IH. intros K. apply H. right. auto.
Qed.

Lemma binding_inj k v k' v' : no_eq k -> no_eq k' -> binding k v = binding k' v' -> k = k' /\ v = v'.
Proof.
  intros Hk Hk' E. assert (K : k = k').
  { rewrite <- (variable_binding k v), <- (variable_binding k' v'); auto. congruence. }
  subst k'. split; [reflexivity|]. unfold binding in E.
  revert E. clear. induction k as [|c k IH]; intros E.
  - inversion E. reflexivity.
  - inversion E. auto.
Qed.

Lemma presents_sees l m k v : presents l m -> (forall k', is_Some (m !! k') -> no_eq k') ->
  m !! k = Some v -> sees l k v.
Proof.
  intros P Hp Hm e. assert (Hk : no_eq k) by (apply Hp; eauto). split.
  - intros [Hin Hv]. apply P in Hin. destruct Hin as (k' & v' & Hm' & ->).
    assert (Hk' : no_eq k') by (apply Hp; eauto).
    rewrite variable_binding in Hv by auto. subst k'. congruence.
  - intros ->. split; [apply P; eauto|]. apply variable_binding. auto.
Qed.

(** * The built program *)

Lemma process_from_ok w c p : process_from w c = Ret (Ok p) ->
  exists u g path, selects (w_uid w) (w_user w) (pc_uid c) (pc_user c) u /\
    selects (w_gid w) (w_group w) (pc_gid c) (pc_group c) g /\
    pc_path c = Some path /\ ~ (is_cronjob (pc_type c) = true /\ pc_before c <> []) /\
    flatten_to_strings w (program_env w c u) = Ret (p_env p) /\
    p_args p = path :: render_args w (program_env w c u) 0 (pc_args c) /\
    p_uid p = u_uid u /\ p_gid p = g_gid g /\
    p_name p = pc_name c /\ p_path p = path /\ p_pty p = pc_pty c /\ p_caps p = pc_caps c /\
    p_workdir p = match pc_workdir c with None => "." | Some d => d end /\
    p_state p = match pc_type c with CronJob _ => Sleeping | _ => Blocked end /\
    p_type p = match pc_type c with Oneshot => ROneshot | Notify => RNotify | CronJob _ => RCronjob end /\
    p_pid p = 0%Z /\ p_status p = "".
Proof.
  unfold process_from.
  destruct (is_cronjob (pc_type c) && negb (is_nil (pc_before c))) eqn:E0; [discriminate|].
  destruct (map_id (pc_uid c) (pc_user c) (w_uid w) (w_user w)) as [u|e] eqn:EU; [|discriminate].
  destruct (map_id (pc_gid c) (pc_group c) (w_gid w) (w_group w)) as [g|e] eqn:EG; [|discriminate].
  destruct (pc_path c) as [path|] eqn:EP; [|discriminate].
  destruct (flatten_to_strings w (program_env w c u)) as [l|m] eqn:EF; cbn; [|discriminate].
  destruct (cstring _ path) as [a0|m] eqn:E1; cbn; [|discriminate].
  destruct (cstrings _ (render_args w (program_env w c u) 0 (pc_args c))) as [args|m] eqn:E2; cbn; [|discriminate].
  intros H. inversion H; subst; clear H. exists u, g, path. cbn.
  apply map_id_spec in EU, EG. apply cstrings_ret in E2. destruct E2 as [-> _].
  unfold cstring in E1. destruct (has_nul path); [discriminate|]. inversion E1; subst.
  repeat split; auto. intros [K1 K2]. rewrite K1 in E0. destruct (pc_before c); [auto|discriminate].
Qed.

Lemma selects_fun {T} (a : Z -> option (option T)) b i n t t' : selects a b i n t -> selects a b i n t' -> t = t'.
Proof. intros H K; inversion H; subst; inversion K; subst; congruence. Qed.

Lemma render_args_nth w env args : forall i k v, nth_error (render_args w env i args) k = Some v <->
  exists x, nth_error args k = Some x /\
    rendered w ("Argument " +:+ show_Z (Z.of_nat (i + k))) env x v.
Proof.
  unfold rendered. induction args as [|x r IH]; intros i k v.
  - destruct k; cbn; (split; [discriminate|]); intros (y & H & _); discriminate.
  - destruct k as [|k]; cbn [render_args nth_error].
    + rewrite Nat.add_0_r. split.
      * intros H. inversion H; subst. exists x. split; [reflexivity|].
        destruct (w_render w _ env x); auto.
      * intros (y & Hy & Hr). inversion Hy; subst. destruct Hr as [Hr|[Hr ->]]; rewrite Hr; reflexivity.
    + rewrite IH. replace (S i + k)%nat with (i + S k)%nat by lia. reflexivity.
Qed.
Lemma render_args_length w env args : forall i, length (render_args w env i args) = length args.
Proof. induction args; intros i; cbn; auto. Qed.

(** Some string of the program as built contains a NUL byte. *)
Definition holds_nul (w : world) (c : proc_config) (u : user) : Prop :=
  (exists k v, program_env w c u !! k = Some v /\ has_nul (binding k v) = true) \/
  (exists path, pc_path c = Some path /\ has_nul path = true) \/
  (exists i x v, nth_error (pc_args c) i = Some x /\
     rendered w ("Argument " +:+ show_Z (Z.of_nat i)) (program_env w c u) x v /\ has_nul v = true).

Lemma process_from_holds w c : any_order w ->
  (exists m, process_from w c = Panic m) <->
  ~ (is_cronjob (pc_type c) = true /\ pc_before c <> []) /\
  (exists u, selects (w_uid w) (w_user w) (pc_uid c) (pc_user c) u /\ holds_nul w c u) /\
  (exists g, selects (w_gid w) (w_group w) (pc_gid c) (pc_group c) g) /\ pc_path c <> None.
Proof.
  intros Ho.
  assert (FN : forall u, (exists m, flatten_to_strings w (program_env w c u) = Panic m) <->
    exists k v, program_env w c u !! k = Some v /\ has_nul (binding k v) = true).
  { intros u. unfold flatten_to_strings. split.
    - intros (m & H). apply cstrings_panic in H. destruct H as (_ & s & Hin & Hs).
      apply in_map_iff in Hin. destruct Hin as ([k v] & <- & Hin).
      apply (Permutation_in _ (Ho _)) in Hin. exists k, v. split; [|auto].
      apply elem_of_map_to_list, elem_of_list_In. auto.
    - intros (k & v & Hm & Hs). eexists. apply cstrings_panic. split; [reflexivity|].
      exists (binding k v). split; [|auto]. apply in_map_iff. exists (k, v). split; [reflexivity|].
      apply (Permutation_in _ (Permutation_sym (Ho _))). apply elem_of_list_In, elem_of_map_to_list. auto. }
  assert (AN : forall u, (exists m, cstrings "Could not unwrap arg" (render_args w (program_env w c u) 0 (pc_args c)) = Panic m) <->
    exists i x v, nth_error (pc_args c) i = Some x /\
     rendered w ("Argument " +:+ show_Z (Z.of_nat i)) (program_env w c u) x v /\ has_nul v = true).
  { intros u. split.
    - intros (m & H). apply cstrings_panic in H. destruct H as (_ & s & Hin & Hs).
      apply In_nth_error in Hin. destruct Hin as [i Hi]. apply render_args_nth in Hi.
      destruct Hi as (x & Hx & Hr). exists i, x, s. auto.
    - intros (i & x & v & Hx & Hr & Hs). eexists. apply cstrings_panic. split; [reflexivity|].
      exists v. split; [|auto]. eapply nth_error_In. apply render_args_nth. exists x. split; eauto. }
  unfold process_from.
  destruct (is_cronjob (pc_type c) && negb (is_nil (pc_before c))) eqn:E0.
  { split; [intros (m & H); discriminate|]. intros (H & _). exfalso. apply H.
    apply andb_true_iff in E0. destruct E0 as [-> E0]. split; [reflexivity|]. destruct (pc_before c); [discriminate|congruence]. }
  assert (NC : ~ (is_cronjob (pc_type c) = true /\ pc_before c <> [])).
  { intros [K1 K2]. rewrite K1 in E0. destruct (pc_before c); [auto|discriminate]. }
  destruct (map_id (pc_uid c) (pc_user c) (w_uid w) (w_user w)) as [u|e] eqn:EU.
  2:{ split; [intros (m & H); discriminate|]. intros (_ & (u & Hu & _) & _). apply map_id_spec in Hu. congruence. }
  destruct (map_id (pc_gid c) (pc_group c) (w_gid w) (w_group w)) as [g|e] eqn:EG.
  2:{ split; [intros (m & H); discriminate|]. intros (_ & _ & (g & Hg) & _). apply map_id_spec in Hg. congruence. }
  apply map_id_spec in EU, EG.
  destruct (pc_path c) as [path|] eqn:EP.
  2:{ split; [intros (m & H); discriminate|]. intros (_ & _ & _ & H). congruence. }
  transitivity (holds_nul w c u).
  2:{ split.
      - intros H. split; [auto|]. split; [eauto|]. split; [eauto|discriminate].
      - intros (_ & (u' & Hu' & H) & _). rewrite (selects_fun _ _ _ _ _ _ EU Hu'). auto. }
  unfold holds_nul. rewrite <- FN, <- AN, EP. clear FN AN.
  destruct (flatten_to_strings w (program_env w c u)) as [l|m]; cbn.
  2:{ split; [eauto|]. intros _. eauto. }
  unfold cstring. destruct (has_nul path) eqn:E1; cbn.
  { split; [intros _; right; left; eauto|eauto]. }
  destruct (cstrings _ _) as [args|m]; cbn.
  - split; [intros (m & H); discriminate|]. intros [(m & H)|[(p & Hp & H)|(m & H)]]; try discriminate.
    inversion Hp; subst. congruence.
  - split; [eauto|]. eauto.
Qed.

(** Rejected, with which error. *)
Theorem process_from_rejects w c : (exists e, process_from w c = Ret (Err e)) <->
  (is_cronjob (pc_type c) = true /\ pc_before c <> []) \/
  (forall u, ~ selects (w_uid w) (w_user w) (pc_uid c) (pc_user c) u) \/
  (forall g, ~ selects (w_gid w) (w_group w) (pc_gid c) (pc_group c) g) \/ pc_path c = None.
Proof.
  unfold process_from.
  destruct (is_cronjob (pc_type c) && negb (is_nil (pc_before c))) eqn:E0.
  { split; [|eauto]. intros _. left.
    apply andb_true_iff in E0. destruct E0 as [-> E0]. split; [reflexivity|]. destruct (pc_before c); [discriminate|congruence]. }
  assert (NC : ~ (is_cronjob (pc_type c) = true /\ pc_before c <> [])).
  { intros [K1 K2]. rewrite K1 in E0. destruct (pc_before c); [auto|discriminate]. }
  destruct (map_id (pc_uid c) (pc_user c) (w_uid w) (w_user w)) as [u|e] eqn:EU.
  2:{ split; [|eauto]. intros _. right. left. intros u Hu. apply map_id_spec in Hu. congruence. }
  destruct (map_id (pc_gid c) (pc_group c) (w_gid w) (w_group w)) as [g|e] eqn:EG.
  2:{ split; [|eauto]. intros _. right. right. left. intros g Hg. apply map_id_spec in Hg. congruence. }
  apply map_id_spec in EU, EG.
  destruct (pc_path c) as [path|] eqn:EP.
  2:{ split; [|eauto]. auto. }
  split.
  - intros (e & H). unfold flatten_to_strings, cstring in H.
    destruct (cstrings _ (map _ _)); cbn in H; [|discriminate].
    destruct (has_nul path); cbn in H; [discriminate|].
    destruct (cstrings _ (render_args _ _ _ _)); cbn in H; discriminate.
  - intros [H|[H|[H|H]]]; [contradiction|exfalso; eapply H; eauto|exfalso; eapply H; eauto|discriminate].
Qed.

(** * C06 *)
Theorem program_identity w c p :
  (forall i u, w_uid w i = Some (Some u) -> u_uid u = i) ->
  (forall i g, w_gid w i = Some (Some g) -> g_gid g = i) ->
  process_from w c = Ret (Ok p) ->
  (exists u, selects (w_uid w) (w_user w) (pc_uid c) (pc_user c) u /\ p_uid p = u_uid u) /\
  (exists g, selects (w_gid w) (w_group w) (pc_gid c) (pc_group c) g /\ p_gid p = g_gid g) /\
  (forall i, pc_uid c = Some i -> p_uid p = i) /\ (pc_uid c = None -> pc_user c = None -> p_uid p = 0%Z) /\
  (forall i, pc_gid c = Some i -> p_gid p = i) /\ (pc_gid c = None -> pc_group c = None -> p_gid p = 0%Z).
Proof.
  intros HU HG H. apply process_from_ok in H.
  destruct H as (u & g & path & Hu & Hg & _ & _ & _ & _ & Pu & Pg & _).
  split; [eauto|]. split; [eauto|]. rewrite Pu, Pg. repeat split.
  - intros i Hi. rewrite Hi in Hu. inversion Hu; subst. auto.
  - intros H1 H2. rewrite H1, H2 in Hu. inversion Hu; subst. auto.
  - intros i Hi. rewrite Hi in Hg. inversion Hg; subst. auto.
  - intros H1 H2. rewrite H1, H2 in Hg. inversion Hg; subst. auto.
Qed.

(** * C07 *)
Lemma program_env_keys w c u k v : program_env w c u !! k = Some v ->
  In k nine \/ named c k \/ (k = "NOTIFY_SOCKET" /\ pc_type c = Notify).
Proof.
  intros H.
  assert (K : forall v', convert_env w (pc_env c) u !! k = Some v' -> In k nine \/ named c k).
  { intros v' Hv'. unfold convert_env in Hv'. rewrite copy_flat in Hv'. apply copy_keys in Hv'.
    destruct Hv' as [Hv'|[o Hv']]; [|right; exists o; auto].
    rewrite sanitised_lookup in Hv'. destruct (decide (In k nine)); [auto|discriminate]. }
  unfold program_env in H. destruct (pc_type c); [apply K in H; tauto| |apply K in H; tauto].
  destruct (decide (k = "NOTIFY_SOCKET")) as [->|Hk]; [auto|].
  rewrite lookup_insert_ne in H by auto. apply K in H. tauto.
Qed.

Lemma nine_no_eq k : In k nine -> no_eq k.
Proof.
  unfold nine, no_eq. cbn. intros H. repeat (destruct H as [<-|H]; [cbn; intuition discriminate|]). destruct H.
Qed.

Lemma program_env_plain w c u k : plain_keys c -> is_Some (program_env w c u !! k) -> no_eq k.
Proof.
  intros Hp [v H]. apply program_env_keys in H. destruct H as [H|[H|[-> _]]].
  - apply nine_no_eq; auto.
  - apply Hp; auto.
  - unfold no_eq. cbn. intuition discriminate.
Qed.

Lemma program_env_nine w c u k : In k nine -> is_Some (program_env w c u !! k) /\
  ((forall o, In (k, o) (env_entries c) -> ~ binds w (k, o)) ->
   program_env w c u !! k = Some (default_value w u k)).
Proof.
  intros Hk. assert (Hns : k <> "NOTIFY_SOCKET").
  { intros ->. unfold nine in Hk. cbn in Hk. intuition discriminate. }
  assert (E : program_env w c u !! k = convert_env w (pc_env c) u !! k).
  { unfold program_env. destruct (pc_type c); auto. apply lookup_insert_ne; auto. }
  rewrite E. split; [apply convert_present; auto|]. intros Hb.
  unfold convert_env. rewrite copy_flat, copy_unchanged by auto. rewrite sanitised_lookup.
  destruct (decide (In k nine)); [reflexivity|contradiction].
Qed.

Theorem well_known w c p : any_order w -> plain_keys c -> process_from w c = Ret (Ok p) ->
  exists u, selects (w_uid w) (w_user w) (pc_uid c) (pc_user c) u /\
  forall k, In k nine ->
    (exists v, sees (p_env p) k v) /\
    ((forall o, In (k, o) (env_entries c) -> ~ binds w (k, o)) -> sees (p_env p) k (default_value w u k)).
Proof.
  intros Ho Hp H. apply process_from_ok in H.
  destruct H as (u & g & path & Hu & _ & _ & _ & HF & _).
  apply flatten_presents in HF; auto. exists u. split; [auto|]. intros k Hk.
  destruct (program_env_nine w c u k Hk) as [[v Hv] Hd]. split.
  - exists v. eapply presents_sees; eauto. intros k' Hk'. eapply program_env_plain; eauto.
  - intros Hb. eapply presents_sees; eauto. intros k' Hk'. eapply program_env_plain; eauto.
Qed.

(** * C08 *)
Theorem no_leak w c p e : any_order w -> process_from w c = Ret (Ok p) -> In e (p_env p) ->
  exists k v, e = binding k v /\
    (In k nine \/ named c k \/ (k = "NOTIFY_SOCKET" /\ pc_type c = Notify)).
Proof.
  intros Ho H He. apply process_from_ok in H.
  destruct H as (u & g & path & Hu & _ & _ & _ & HF & _).
  apply flatten_presents in HF; auto. apply HF in He. destruct He as (k & v & Hm & ->).
  exists k, v. split; [reflexivity|]. eapply program_env_keys; eauto.
Qed.

Theorem one_per_variable w c p : any_order w -> plain_keys c -> process_from w c = Ret (Ok p) ->
  NoDup (map variable (p_env p)).
Proof.
  intros Ho Hp H. apply process_from_ok in H.
  destruct H as (u & g & path & Hu & _ & _ & _ & HF & _).
  unfold flatten_to_strings in HF. apply cstrings_ret in HF. destruct HF as [-> _].
  rewrite map_map.
  assert (E : map (fun x => variable (x.1 +:+ "=" +:+ x.2)) (w_order w (map_to_list (program_env w c u)))
    = map fst (w_order w (map_to_list (program_env w c u)))).
  { apply map_ext_in. intros [k v] Hin. apply variable_binding. eapply program_env_plain; [eauto|].
    exists v. apply elem_of_map_to_list, elem_of_list_In. apply (Permutation_in _ (Ho _)). eauto. }
  rewrite E. eapply Permutation_NoDup.
  - apply Permutation_map. symmetry. apply Ho.
  - apply NoDup_ListNoDup. apply NoDup_fst_map_to_list.
Qed.

Lemma copy_env_irrelevant w w' es : w_render w = w_render w' ->
  (forall k, In (k, None) es -> w_env w k = w_env w' k) ->
  forall env, fold_left (copy_entry w) es env = fold_left (copy_entry w') es env.
Proof.
  intros Hr. induction es as [|[k o] r IH]; intros He env; [reflexivity|]. cbn [fold_left].
  rewrite IH by (intros k' Hk'; apply He; right; auto). f_equal.
  destruct o as [raw|]; cbn; [rewrite Hr; reflexivity|]. rewrite He by (left; reflexivity). reflexivity.
Qed.

Theorem env_noninterference w w' c : same_but_env w w' ->
  (forall k, In k ["LANG"; "LANGUAGE"; "PATH"; "TERM"] -> w_env w k = w_env w' k) ->
  (forall k, In (k, None) (env_entries c) -> w_env w k = w_env w' k) ->
  process_from w c = process_from w' c.
Proof.
  intros (H1 & H2 & H3 & H4 & H5 & H6) HL HE.
  assert (HM : forall u, program_env w c u = program_env w' c u).
  { intros u. assert (C : convert_env w (pc_env c) u = convert_env w' (pc_env c) u).
    { unfold convert_env. rewrite !copy_flat.
      rewrite (copy_env_irrelevant w w') by auto. f_equal.
      apply map_eq. intros k. rewrite !sanitised_lookup. destruct (decide (In k nine)) as [Hk|Hk]; [|reflexivity].
      f_equal. unfold nine in Hk. cbn in Hk. unfold default_value.
      repeat (destruct Hk as [<-|Hk]; [cbn; try reflexivity; rewrite HL by (cbn; tauto); reflexivity|]). destruct Hk. }
    unfold program_env. rewrite C. reflexivity. }
  assert (HA : forall u i args, render_args w (program_env w c u) i args = render_args w' (program_env w' c u) i args).
  { intros u i args. rewrite <- HM. revert i. induction args as [|x r IH]; intros i; cbn; [reflexivity|].
    rewrite IH, H5. reflexivity. }
  unfold process_from. rewrite H1, H2, H3, H4.
  destruct (is_cronjob _ && _); [reflexivity|].
  destruct (map_id (pc_uid c) _ _ _) as [u|]; [|reflexivity].
  destruct (map_id (pc_gid c) _ _ _) as [g|]; [|reflexivity].
  destruct (pc_path c); [|reflexivity].
  rewrite HA, HM. unfold flatten_to_strings. rewrite H6. reflexivity.
Qed.

(** * C09 *)
Theorem env_list w c u :
  let env es := fold_left (copy_entry w) es (sanitise_env (get_default_env w) u) in
  convert_env w (pc_env c) u = env (env_entries c).
Proof. cbn. unfold convert_env. apply copy_flat. Qed.

Lemma env_after_fold w u es : env_after w u es (fold_left (copy_entry w) es (sanitise_env (get_default_env w) u)).
Proof.
  induction es as [|[k o] es IH] using rev_ind.
  - apply ea_none. intros k. apply sanitised_lookup.
  - rewrite fold_left_app. cbn [fold_left].
    destruct o as [raw|]; cbn [copy_entry].
    + apply ea_value; auto. unfold rendered. destruct (w_render w k _ raw); auto.
    + destruct (w_env w k) eqn:E; [apply ea_forward|apply ea_skip]; auto.
Qed.

Lemma env_after_fun w u es m : env_after w u es m -> m = fold_left (copy_entry w) es (sanitise_env (get_default_env w) u).
Proof.
  induction 1 as [m H|es m k raw v _ -> H|es m k v _ -> H|es m k _ -> H]; rewrite ?fold_left_app; cbn [fold_left copy_entry].
  - apply map_eq. intros k. rewrite H. symmetry. apply sanitised_lookup.
  - destruct H as [H|[H ->]]; rewrite H; reflexivity.
  - rewrite H. reflexivity.
  - rewrite H. reflexivity.
Qed.

Lemma contains_holds w c u : contains_nul w c u <-> holds_nul w c u.
Proof.
  assert (E : program_env w c u = match pc_type c with Notify => <["NOTIFY_SOCKET" := "/run/cinit-notify.socket"]> (convert_env w (pc_env c) u) | _ => convert_env w (pc_env c) u end) by reflexivity.
  unfold contains_nul, holds_nul. rewrite E. split.
  - intros (m & A & H). apply env_after_fun in A. rewrite env_list. subst m. exact H.
  - intros H. exists (convert_env w (pc_env c) u). split; [rewrite env_list; apply env_after_fold|exact H].
Qed.

(** Panics exactly on NUL bytes. *)
Theorem process_from_panics w c : any_order w ->
  (exists m, process_from w c = Panic m) <->
  ~ (is_cronjob (pc_type c) = true /\ pc_before c <> []) /\
  (exists u, selects (w_uid w) (w_user w) (pc_uid c) (pc_user c) u /\ contains_nul w c u) /\
  (exists g, selects (w_gid w) (w_group w) (pc_gid c) (pc_group c) g) /\ pc_path c <> None.
Proof.
  intros Ho. rewrite (process_from_holds w c Ho). split; intros (A & (u & U & N) & B); (split; [exact A|]; split; [|exact B]);
    exists u; (split; [exact U|]); apply contains_holds; exact N.
Qed.

Theorem program_env_after w c p : any_order w -> process_from w c = Ret (Ok p) ->
  exists u m, selects (w_uid w) (w_user w) (pc_uid c) (pc_user c) u /\ env_after w u (env_entries c) m /\
    presents (p_env p) (match pc_type c with Notify => <["NOTIFY_SOCKET" := "/run/cinit-notify.socket"]> m | _ => m end).
Proof.
  intros Ho H. apply process_from_ok in H.
  destruct H as (u & g & path & Hu & _ & _ & _ & HF & _).
  apply flatten_presents in HF; auto. exists u, (convert_env w (pc_env c) u). split; [auto|].
  split; [|exact HF]. rewrite env_list. apply env_after_fold.
Qed.

Lemma app_tail_split {A} (l l1 l2 : list A) (x y : A) : l1 ++ y :: l2 = l ++ [x] ->
  (l2 = [] /\ l1 = l /\ y = x) \/ (exists l2', l2 = l2' ++ [x] /\ l = l1 ++ y :: l2').
Proof.
  intros E. destruct l2 as [|z l2' _] using rev_ind.
  - apply app_inj_tail in E. destruct E. auto.
  - right. rewrite app_comm_cons, app_assoc in E. apply app_inj_tail in E. destruct E as [<- ->]. eauto.
Qed.

(** The last entry that sets a variable wins; without one the default stays. *)
Theorem env_after_last w u es m : env_after w u es m -> forall k es1 o es2,
  es = es1 ++ (k, o) :: es2 -> binds w (k, o) -> (forall o', In (k, o') es2 -> ~ binds w (k, o')) ->
  exists m1, env_after w u es1 m1 /\
    match o with
    | Some raw => exists v, rendered w k m1 raw v /\ m !! k = Some v
    | None => m !! k = w_env w k
    end.
Proof.
  intros H. induction H as [m Hm|es m k0 raw0 v0 H IH Hr|es m k0 v0 H IH He|es m k0 H IH He]; intros k es1 o es2 E Hb Hl.
  - destruct es1; discriminate.
  - symmetry in E. apply app_tail_split in E. destruct E as [(-> & -> & E)|(l2 & -> & ->)].
    + inversion E; subst. exists m. split; [auto|]. exists v0. split; [auto|]. apply lookup_insert.
    + assert (Hk : k <> k0).
      { intros ->. apply (Hl (Some raw0)); [apply in_or_app; right; left; reflexivity|exact I]. }
      edestruct IH as (m1 & Hm1 & K); [reflexivity|exact Hb|intros o' Ho'; apply Hl; apply in_or_app; auto|].
      exists m1. split; [auto|]. rewrite lookup_insert_ne by auto. exact K.
  - symmetry in E. apply app_tail_split in E. destruct E as [(-> & -> & E)|(l2 & -> & ->)].
    + inversion E; subst. exists m. split; [auto|]. rewrite lookup_insert. auto.
    + assert (Hk : k <> k0).
      { intros ->. apply (Hl None); [apply in_or_app; right; left; reflexivity|cbn; congruence]. }
      edestruct IH as (m1 & Hm1 & K); [reflexivity|exact Hb|intros o' Ho'; apply Hl; apply in_or_app; auto|].
      exists m1. split; [auto|]. rewrite lookup_insert_ne by auto. exact K.
  - symmetry in E. apply app_tail_split in E. destruct E as [(-> & -> & E)|(l2 & -> & ->)].
    + inversion E; subst. cbn in Hb. congruence.
    + edestruct IH as (m1 & Hm1 & K); [reflexivity|exact Hb|intros o' Ho'; apply Hl; apply in_or_app; auto|].
      exists m1. split; auto.
Qed.

Theorem env_after_untouched w u es m k : env_after w u es m -> (forall o, In (k, o) es -> ~ binds w (k, o)) ->
  m !! k = if decide (In k nine) then Some (default_value w u k) else None.
Proof.
  intros H. induction H as [m Hm|es m k0 raw0 v0 H IH Hr|es m k0 v0 H IH He|es m k0 H IH He]; intros Hl.
  - apply Hm.
  - assert (Hk : k <> k0). { intros ->. apply (Hl (Some raw0)); [apply in_or_app; right; left; reflexivity|exact I]. }
    rewrite lookup_insert_ne by auto. apply IH. intros o Ho. apply Hl, in_or_app; auto.
  - assert (Hk : k <> k0). { intros ->. apply (Hl None); [apply in_or_app; right; left; reflexivity|cbn; congruence]. }
    rewrite lookup_insert_ne by auto. apply IH. intros o Ho. apply Hl, in_or_app; auto.
  - apply IH. intros o Ho. apply Hl, in_or_app; auto.
Qed.

(** * C10 *)
Theorem program_args w c p : any_order w -> process_from w c = Ret (Ok p) ->
  exists m, presents (p_env p) m /\
  (exists path, pc_path c = Some path /\ nth_error (p_args p) 0 = Some path /\ p_path p = path) /\
  length (p_args p) = S (length (pc_args c)) /\
  (forall i x, nth_error (pc_args c) i = Some x ->
    exists v, nth_error (p_args p) (S i) = Some v /\ rendered w ("Argument " +:+ show_Z (Z.of_nat i)) m x v).
Proof.
  intros Ho H. apply process_from_ok in H.
  destruct H as (u & g & path & Hu & _ & Hp & _ & HF & Ha & _ & _ & _ & Hpath & _).
  apply flatten_presents in HF; auto. exists (program_env w c u). split; [auto|].
  split; [exists path; rewrite Ha; auto|]. rewrite Ha. split; [cbn; rewrite render_args_length; auto|].
  intros i x Hx. cbn [nth_error].
  assert (L : (i < length (render_args w (program_env w c u) 0 (pc_args c)))%nat).
  { rewrite render_args_length. apply nth_error_Some. congruence. }
  apply nth_error_Some in L. destruct (nth_error (render_args _ _ _ _) i) as [v|] eqn:E; [|congruence].
  exists v. split; [reflexivity|]. apply render_args_nth in E. destruct E as (x' & Hx' & Hr).
  cbn in Hr. congruence.
Qed.

(** * C11 *)
Theorem notify_socket w c p : any_order w -> process_from w c = Ret (Ok p) ->
  (pc_type c = Notify -> In "NOTIFY_SOCKET=/run/cinit-notify.socket" (p_env p) /\
     (plain_keys c -> sees (p_env p) "NOTIFY_SOCKET" "/run/cinit-notify.socket")) /\
  (pc_type c <> Notify -> forall v, In (binding "NOTIFY_SOCKET" v) (p_env p) -> plain_keys c -> named c "NOTIFY_SOCKET").
Proof.
  intros Ho H. apply process_from_ok in H.
  destruct H as (u & g & path & Hu & _ & _ & _ & HF & _).
  apply flatten_presents in HF; auto. split.
  - intros Ht. assert (E : program_env w c u !! "NOTIFY_SOCKET" = Some NOTIFY_SOCKET_PATH).
    { unfold program_env. rewrite Ht. apply lookup_insert. }
    split.
    + apply HF. exists "NOTIFY_SOCKET", NOTIFY_SOCKET_PATH. split; [auto|reflexivity].
    + intros Hp. eapply presents_sees; eauto. intros k' Hk'. eapply program_env_plain; eauto.
  - intros Ht v Hin Hp. apply HF in Hin. destruct Hin as (k & v' & Hm & E).
    assert (Hk : no_eq k) by (eapply program_env_plain; eauto).
    apply binding_inj in E; [|unfold no_eq; cbn; intuition discriminate|auto]. destruct E as [<- <-].
    apply program_env_keys in Hm. destruct Hm as [Hm|[Hm|[_ Hm]]]; [|auto|contradiction].
    unfold nine in Hm. cbn in Hm. intuition discriminate.
Qed.
