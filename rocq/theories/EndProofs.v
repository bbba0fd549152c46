(** Lemmas from an entry in a file to the program that is run. *)
From stdpp Require Import gmap strings.
From Coq Require Import ZArith List Bool Lia Permutation.
From Verif Require Import Base RStr ConfigModel ProcessModel EnvModel DepModel ManagerModel SysModel MainModel ChildModel FdModel
  SpecConfig SpecEnv SpecMain SpecRun SpecChild EnvProofs MainProofs RunStep RunInv RunSteps4 ChildThms.
From Verif Require Import YamlModel SpecYaml YamlProofs SpecEnd.
Import ListNotations.
Local Open Scope string_scope.
Local Open Scope list_scope.
Local Open Scope Z_scope.

Lemma Forall2_nth {A B} (R : A -> B -> Prop) l m i x : Forall2 R l m -> nth_error l i = Some x -> exists y, nth_error m i = Some y /\ R x y.
Proof. intros F. revert i. induction F as [|a b l m H F IH]; intros [|i] E; cbn in *; try discriminate; [|auto]. inversion E; subst. eauto. Qed.

(** * Settings never change *)
Lemma settings_refl p : same_settings p p.
Proof. unfold same_settings. repeat (split; [reflexivity|]). reflexivity. Qed.
Lemma settings_trans p q r : same_settings p q -> same_settings q r -> same_settings p r.
Proof.
  unfold same_settings. intros (A1 & A2 & A3 & A4 & A5 & A6 & A7 & A8 & A9 & A10) (B1 & B2 & B3 & B4 & B5 & B6 & B7 & B8 & B9 & B10).
  repeat (split; [congruence|]). congruence.
Qed.
Lemma settings_started p pid : same_settings p (started p pid).
Proof. unfold same_settings. repeat (split; [reflexivity|]). reflexivity. Qed.
Lemma settings_state p st : same_settings p (with_state p st).
Proof. unfold same_settings. repeat (split; [reflexivity|]). reflexivity. Qed.
Lemma settings_notified p vars : same_settings p (notified_process p vars).
Proof.
  unfold notified_process, same_settings. destruct (mainpid vars), (var vars "STATUS"); repeat (split; [reflexivity|]); reflexivity.
Qed.

Definition kept (l m : list process) : Prop := Forall2 same_settings l m.
Lemma kept_insert l m id p q : kept l m -> m !! id = Some p -> same_settings p q -> kept l (<[id := q]> m).
Proof.
  intros K H S. assert (E := proj1 (Forall2_lookup _ _ _) K id). rewrite H in E. inversion E as [p0 ? S0 E0|]; subst.
  rewrite <- (list_insert_id l id p0) by auto. apply Forall2_insert; [exact K|]. eapply settings_trans; eauto.
Qed.
Lemma origin_procs e s id g1 pre : origin e s id g1 pre -> g_procs g1 = g_procs (s_g s).
Proof. intros O. inversion O; reflexivity. Qed.
Lemma trans_kept e s s' l : kept l (g_procs (s_g s)) -> trans e s s' -> kept l (g_procs (s_g s')).
Proof.
  intros KP T. step_cases T; cbn [s_g mk_s with_kernel mk_g g_procs set_dep set_cron set_keep set_fds]; auto.
  - rewrite (origin_procs _ _ _ _ _ O). exact KP.
  - rewrite (origin_procs _ _ _ _ _ O). exact KP.
  - eapply kept_insert; eauto using settings_started.
  - eapply kept_insert; eauto using settings_notified.
  - eapply kept_insert; eauto using settings_state.
Qed.
Lemma execute_kept e s ops s' l : (forall l, Permutation (e_order e l) l) -> kept l (g_procs (s_g s)) -> execute e s ops = Some s' -> kept l (g_procs (s_g s')).
Proof.
  intros OK. revert s. induction ops as [|o ops IH]; intros s K X; cbn in X; [inversion X; subst; auto|].
  destruct (sstep e s o) as [t|] eqn:E; [|discriminate]. apply (IH t); [|auto]. eapply trans_kept; eauto using sstep_trans.
Qed.

Lemma reachable_settings k e configs s : reachable k e configs s ->
  Forall2 (fun c q => exists q0, process_from (m_world k) c = Ret (Ok q0) /\ same_settings q0 q) configs (g_procs (s_g s)) /\
  exists parsed, read_as k parsed /\ merged (concat parsed) configs.
Proof.
  intros (s0 & ops & (Hk & _ & OK & a & others & R & _ & ->) & X).
  assert (K : kept (a_processes a) (g_procs (s_g s))).
  { eapply execute_kept; [exact OK| |exact X]. cbn. unfold kept. clear. induction (a_processes a); constructor; auto using settings_refl. }
  destruct (run_exact k _ Hk R) as [(_ & E)|(_ & [(_ & E)|(_ & parsed & RA & [(_ & E)|(_ & cs & M & [(_ & E)|[(_ & _ & E)|(_ & _ & a' & E & F & _)]])])])]; try discriminate.
  inversion E; subst cs a'. split; [|eauto].
  clear -F K. unfold kept in K. revert K. generalize (g_procs (s_g s)). induction F as [|c q0 cs qs H F IH]; intros m K; inversion K; subst; constructor; eauto.
Qed.
Lemma settings_kept k e configs s id q : reachable k e configs s -> g_procs (s_g s) !! id = Some q ->
  exists c q0, nth_error configs id = Some c /\ process_from (m_world k) c = Ret (Ok q0) /\ same_settings q0 q.
Proof.
  intros R H. destruct (reachable_settings _ _ _ _ R) as (F & _). rewrite Forall2_lookup in F. specialize (F id). rewrite H in F.
  inversion F as [c ? (q0 & P & S) E|]; subst. exists c, q0. rewrite nth_error_lookup. auto.
Qed.

Lemma programs_kept k e configs s : reachable k e configs s -> length (g_procs (s_g s)) = length configs.
Proof. intros R. destruct (reachable_settings _ _ _ _ R) as (F & _). symmetry. eapply Forall2_length; eauto. Qed.

(** * Finding the entry *)
Lemma node_at_fun root p n : node_at root p n -> forall m, node_at root p m -> n = m.
Proof. induction 1; intros m' H'; inversion H'; subst; [reflexivity|]. assert (m = m0) by congruence. subst. auto. Qed.
Lemma file_at_fun root p s s' : file_at root p s -> file_at root p s' -> s = s'.
Proof. intros H H'. assert (E := node_at_fun _ _ _ H _ H'). congruence. Qed.

Lemma filter_nil {A} (P : A -> bool) l : (forall x, In x l -> P x = false) -> List.filter P l = [].
Proof. induction l as [|x l IH]; cbn; intros H; [reflexivity|]. rewrite (H x) by auto. auto. Qed.
Lemma filter_single {A} (P : A -> bool) (L : list (list A)) j cs i c :
  nth_error L j = Some cs -> nth_error cs i = Some c -> P c = true ->
  (forall j' cs' i' c', nth_error L j' = Some cs' -> nth_error cs' i' = Some c' -> P c' = true -> j' = j /\ i' = i) ->
  List.filter P (concat L) = [c].
Proof.
  intros H1 H2 Pc U. destruct (nth_error_split _ _ H1) as (L1 & L2 & -> & <-). destruct (nth_error_split _ _ H2) as (c1 & c2 & -> & <-).
  rewrite concat_app. cbn [concat]. rewrite !filter_app. cbn [List.filter]. rewrite Pc.
  assert (N : forall x, In x (concat L1) \/ In x c1 \/ In x c2 \/ In x (concat L2) -> P x = false).
  { intros x Hx. destruct (P x) eqn:E; [|reflexivity]. exfalso. destruct Hx as [H|[H|[H|H]]].
    - apply in_concat in H. destruct H as (cs & I & Hx). apply In_nth_error in I, Hx. destruct I as (j & I), Hx as (i & Hx).
      assert (j < length L1)%nat by (apply nth_error_Some; congruence).
      destruct (U j cs i x) as (E1 & _); [rewrite nth_error_app1 by auto; auto|auto|auto|]. lia.
    - apply In_nth_error in H. destruct H as (i & H). assert (i < length c1)%nat by (apply nth_error_Some; congruence).
      destruct (U (length L1) (c1 ++ c :: c2) i x) as (_ & E1); [auto|rewrite nth_error_app1 by auto; auto|auto|]. lia.
    - apply In_nth_error in H. destruct H as (i & H).
      destruct (U (length L1) (c1 ++ c :: c2) (length c1 + S i)%nat x) as (_ & E1); [auto| |auto|lia].
      rewrite nth_error_app2 by lia. replace (length c1 + S i - length c1)%nat with (S i) by lia. auto.
    - apply in_concat in H. destruct H as (cs & I & Hx). apply In_nth_error in I, Hx. destruct I as (j & I), Hx as (i & Hx).
      destruct (U (length L1 + S j)%nat cs i x) as (E1 & _); [|auto|auto|lia].
      rewrite nth_error_app2 by lia. replace (length L1 + S j - length L1)%nat with (S j) by lia. auto. }
  rewrite (filter_nil P (concat L1)), (filter_nil P c1), (filter_nil P c2), (filter_nil P (concat L2)) by (intros x Hx; apply N; auto). reflexivity.
Qed.

Lemma once_entry l k v w : once l k -> entry l k v -> entry l k w -> v = w.
Proof.
  intros O (s1 & I1) (s2 & I2). apply in_split in I1. destruct I1 as (a & b & ->).
  apply in_app_or in I2. destruct I2 as [I|[I|I]].
  - exfalso. apply in_split in I. destruct I as (a1 & a2 & ->).
    apply (O a1 (YScalar s2 k) w a2 (YScalar s1 k) v b); [rewrite <- app_assoc; reflexivity|exists s2; reflexivity|exists s1; reflexivity].
  - congruence.
  - exfalso. apply in_split in I. destruct I as (b1 & b2 & ->).
    apply (O a (YScalar s1 k) v b1 (YScalar s2 k) w b2 eq_refl); [exists s1|exists s2]; reflexivity.
Qed.
Lemma text_fun y a b : text y a -> text y b -> a = b.
Proof. intros (s & ->) (s' & E). congruence. Qed.

(** The document behind a parsed file. *)
Lemma document_programs lib y cs : (exists doc, y = YMap doc) -> decode_config lib y = Some cs ->
  exists doc v, y = YMap doc /\ entry doc "programs" v /\ decode_seq lib (decode_program lib) v = Some cs.
Proof.
  intros (doc & ->) H. simpl in H. destruct (gather ["programs"] doc []) as [f|] eqn:G; [|discriminate]. unfold required in H.
  destruct (find_key "programs" f) as [v|] eqn:F; [|discriminate]. exists doc, v. split; [reflexivity|]. split; [|auto].
  apply (find_entry _ _ _ G) in F; [auto|simpl; auto].
Qed.
Lemma document_entry lib doc ps cs : decode_config lib (YMap doc) = Some cs -> entry doc "programs" (YSeq ps) ->
  Forall2 (fun y c => decode_program lib y = Some c) ps cs.
Proof.
  intros H E. simpl in H. destruct (gather ["programs"] doc []) as [f|] eqn:G; [|discriminate]. unfold required in H.
  apply (find_entry _ _ _ G) in E; [|simpl; auto]. rewrite E in H. apply traverse_spec. exact H.
Qed.

Section Entry.
  Context (k : machine) (lib : library) (syntax : string -> option yaml).
  Context (AO : SpecYaml.any_order lib) (MY : m_yaml k = read_yaml lib syntax) (ORD : ordinary k syntax).

  (** What was parsed is what stands in the files, file by file and entry by entry. *)
  Lemma parsed_stands parsed : read_as k parsed -> exists ps, List.NoDup ps /\
    (forall p i y, stands k syntax p i y -> exists j cs c, nth_error ps j = Some p /\ nth_error parsed j = Some cs /\ nth_error cs i = Some c /\ decode_program lib y = Some c) /\
    (forall j cs i c, nth_error parsed j = Some cs -> nth_error cs i = Some c ->
       exists p l, nth_error ps j = Some p /\ stands k syntax p i (YMap l) /\ decode_program lib (YMap l) = Some c).
  Proof.
    intros (ps & contents & (ND & F & All) & M). exists ps. split; [auto|]. split.
    - intros p i y (s & doc & es & Fa & Sy & En & Ne).
      assert (I := All _ _ Fa). apply In_nth_error in I. destruct I as (j & Hj).
      assert (Hs : nth_error contents j = Some s).
      { rewrite Forall2_lookup in F. specialize (F j). rewrite <- !nth_error_lookup, Hj in F. inversion F as [? s' X Y|]; subst. f_equal. eapply file_at_fun; eauto. }
      assert (Hp : nth_error (map Some parsed) j = Some (m_yaml k s)) by (rewrite <- M; apply map_nth_error; auto).
      rewrite nth_error_map in Hp. destruct (nth_error parsed j) as [cs|] eqn:Ep; [|discriminate]. inversion Hp as [Hc].
      rewrite MY in Hc. unfold read_yaml in Hc. rewrite Sy in Hc. symmetry in Hc. apply document_entry with (ps := es) in Hc; [|auto].
      rewrite Forall2_lookup in Hc. specialize (Hc i). rewrite <- !nth_error_lookup, Ne in Hc. inversion Hc as [? c D E|]; subst.
      exists j, cs, c. auto 10.
    - intros j cs i c Hj Hi.
      assert (Hp : nth_error (map Some parsed) j = Some (Some cs)) by (apply map_nth_error; auto).
      rewrite <- M, nth_error_map in Hp. destruct (nth_error contents j) as [s|] eqn:Es; [|discriminate]. inversion Hp as [Hc].
      rewrite MY in Hc. unfold read_yaml in Hc. destruct (syntax s) as [y|] eqn:Sy; [|discriminate].
      rewrite Forall2_lookup in F. specialize (F j). rewrite <- !nth_error_lookup, Es in F. inversion F as [p ? Fa Hps|]; subst.
      destruct (document_programs lib y cs (proj1 ORD p s y Fa Sy) Hc) as (doc & v & -> & En & D).
      destruct v as [st t|es|ms].
      + exfalso. cbn in D. destruct st; [|discriminate]. destruct (l_empty lib && (t =? "")%string); [|discriminate]. inversion D; subst. destruct i; discriminate.
      + assert (T : Forall2 (fun y c => decode_program lib y = Some c) es cs) by (apply traverse_spec; exact D).
        rewrite Forall2_lookup in T. specialize (T i). rewrite <- !nth_error_lookup, Hi in T. inversion T as [y ? Dy Ey|]; subst.
        assert (St : stands k syntax p i y) by (exists s, doc, es; auto). destruct (proj2 ORD p i y St) as (l & ->). exists p, l. auto.
      + discriminate.
  Qed.

  Lemma entry_config e configs s p i l n : stands k syntax p i (YMap l) -> field l "name" text n -> sole k syntax p i n ->
    reachable k e configs s -> exists id c q q0, nth_error configs id = Some c /\ pc_name c = n /\ says lib l c /\
      process_from (m_world k) c = Ret (Ok q0) /\ g_procs (s_g s) !! id = Some q /\ same_settings q0 q.
  Proof.
    intros St Nm So R. destruct (reachable_settings _ _ _ _ R) as (F & parsed & RA & (_ & Nam & Mer)).
    destruct (parsed_stands parsed RA) as (ps & ND & A & B).
    destruct (A _ _ _ St) as (j & cs & c & Hp & Hj & Hi & D). assert (Sy := decode_program_says _ _ _ AO D).
    assert (En : pc_name c = n).
    { destruct (says_name _ _ _ Sy) as (v & E1 & T1), Nm as (w & E2 & T2).
      assert (v = w) by (apply (once_entry l "name"); auto; apply (says_once _ _ _ Sy); simpl; auto). subst. eapply text_fun; eauto. }
    assert (Fr : fragments n (concat parsed) = [c]).
    { unfold fragments. eapply filter_single; [exact Hj|exact Hi|apply String.eqb_eq; auto|].
      intros j' cs' i' c' Hj' Hi' E. apply String.eqb_eq in E. destruct (B _ _ _ _ Hj' Hi') as (p' & l' & Hp' & St' & D').
      assert (Sy' := decode_program_says _ _ _ AO D'). assert (Nm' : field l' "name" text n) by (rewrite <- E; apply (says_name _ _ _ Sy')).
      destruct (So _ _ _ St' Nm') as (-> & ->). split; [|reflexivity].
      apply (proj1 (NoDup_nth_error ps) ND); [apply nth_error_Some; congruence|congruence]. }
    assert (In n (map pc_name (concat parsed))).
    { apply in_map_iff. exists c. split; [auto|]. apply in_concat. exists cs. split; eapply nth_error_In; eauto. }
    apply Nam in H. apply in_map_iff in H. destruct H as (c0 & E0 & I0). assert (M0 := Mer _ I0). rewrite E0, Fr in M0. cbn in M0. inversion M0; subst c0.
    apply In_nth_error in I0. destruct I0 as (id & Hid). rewrite Forall2_lookup in F. specialize (F id). rewrite <- (nth_error_lookup configs), Hid in F.
    inversion F as [? q (q0 & P & S) E1 E2|]; subst. exists id, c, q, q0. auto 10.
  Qed.
End Entry.

(** * The child *)
Lemma number_not_null v m : number v m -> ~ null v.
Proof.
  intros N (t & E & I). apply u32_means in N. subst v. simpl in I.
  destruct I as [<-|[<-|[<-|[<-|[<-|[]]]]]]; vm_compute in N; discriminate.
Qed.
Section Says.
  Context (lib : library) (l : list (yaml * yaml)) (c : proc_config) (S : says lib l c).
  Lemma given_fun {A} (R : yaml -> A -> Prop) key o m : In key options -> (forall v x y, R v x -> R v y -> x = y) ->
    field_or l key (optional R) None o -> field l key R m -> (not_given l key /\ o = None) \/ o = Some m.
  Proof.
    intros I Fn H (v & E & X). assert (O := says_once _ _ _ S key I). destruct H as [(w & E' & [(N & ->)|(N & x & Rx & ->)])|(N & _)].
    - left. split; [|reflexivity]. intros z Ez. rewrite (once_entry _ _ _ _ O Ez E'). auto.
    - right. rewrite (once_entry _ _ _ _ O E' E) in Rx. f_equal. eapply Fn; eauto.
    - exfalso. exact (N v E).
  Qed.
  Lemma not_given_none {A} (R : yaml -> A -> Prop) key o : field_or l key (optional R) None o -> not_given l key -> o = None.
  Proof. intros [(w & E' & [(N & ->)|(N & x & Rx & ->)])|(_ & ->)] G; auto. exfalso. apply N, G, E'. Qed.
  Lemma none_not_given {A} (R : yaml -> A -> Prop) key : In key options -> field_or l key (optional R) None None -> not_given l key.
  Proof.
    intros I [(w & E' & [(N & _)|(_ & x & _ & X)])|(N & _)] z Ez; [|discriminate|exfalso; exact (N z Ez)].
    rewrite (once_entry _ _ _ _ (says_once _ _ _ S key I) Ez E'). auto.
  Qed.
End Says.
Lemma number_fun v x y : number v x -> number v y -> x = y.
Proof. intros A B. apply u32_means in A, B. congruence. Qed.

Ltac in_options := unfold options; simpl; tauto.
Lemma selects_id {T} (a : Z -> option (option T)) b i n t : selects a b (Some i) n t -> a i = Some (Some t).
Proof. intros H. inversion H; subst; auto. Qed.
Lemma selects_name {T} (a : Z -> option (option T)) b i n t : selects a b i (Some n) t -> b n = Some (Some t).
Proof. intros H. inversion H; subst; auto. Qed.
Lemma selects_root {T} (a : Z -> option (option T)) b t : selects a b None None t -> a 0 = Some (Some t).
Proof. intros H. inversion H; subst; auto. Qed.

Lemma dressed_written w lib l c q0 q ch : SpecEnv.any_order w -> consistent w -> says lib l c -> process_from w c = Ret (Ok q0) ->
  same_settings q0 q -> dressed q ch -> runs_as_written w l ch.
Proof.
  intros AO (HU & HG) S P (_ & Sp & Sa & Sd & Su & Sg & _ & _ & Se & _) (D1 & D2 & D3 & D4 & D5 & D6 & D7 & _ & D9 & D10).
  assert (PA := program_args _ _ _ AO P).
  apply process_from_ok in P. destruct P as (u & g & path & Us & Gs & Pa & _ & _ & Ar & Pu & Pg & _ & Pp & _ & _ & Wd & _).
  rewrite <- Su, Pu in D1, D2, D3. rewrite <- Sg, Pg in D4, D5, D6, D7.
  split; [|split; [|split; [|split; [|split; [|split; [|split; [|split]]]]]]].
  - intros m X. destruct (given_fun lib l c S number "uid" _ _ ltac:(in_options) number_fun (says_uid _ _ _ S) X) as [(N & _)|E].
    + exfalso. destruct X as (v & E & V). apply (number_not_null _ _ V), N, E.
    + rewrite E in Us. apply selects_id, HU in Us. rewrite Us in *. auto.
  - intros m X. destruct (given_fun lib l c S text "user" _ _ ltac:(in_options) text_fun (says_user _ _ _ S) X) as [(N & _)|E]; [auto|right].
    rewrite E in Us. apply selects_name in Us. exists u. auto.
  - intros X Y. rewrite (not_given_none l _ _ _ (says_uid _ _ _ S) X), (not_given_none l _ _ _ (says_user _ _ _ S) Y) in Us.
    apply selects_root, HU in Us. rewrite Us in *. auto.
  - intros m X. destruct (given_fun lib l c S number "gid" _ _ ltac:(in_options) number_fun (says_gid _ _ _ S) X) as [(N & _)|E].
    + exfalso. destruct X as (v & E & V). apply (number_not_null _ _ V), N, E.
    + rewrite E in Gs. apply selects_id, HG in Gs. rewrite Gs in *. auto.
  - intros m X. destruct (given_fun lib l c S text "group" _ _ ltac:(in_options) text_fun (says_group _ _ _ S) X) as [(N & _)|E]; [auto|right].
    rewrite E in Gs. apply selects_name in Gs. exists g. auto.
  - intros X Y. rewrite (not_given_none l _ _ _ (says_gid _ _ _ S) X), (not_given_none l _ _ _ (says_group _ _ _ S) Y) in Gs.
    apply selects_root, HG in Gs. rewrite Gs in *. auto.
  - intros d X. destruct (given_fun lib l c S text "workdir" _ _ ltac:(in_options) text_fun (says_workdir _ _ _ S) X) as [(N & _)|E]; [auto|right].
    rewrite D9, <- Sd, Wd, E. reflexivity.
  - intros X. rewrite D9, <- Sd, Wd, (not_given_none l _ _ _ (says_workdir _ _ _ S) X). reflexivity.
  - destruct PA as (m & Pm & _ & Len & Nth). rewrite Ar in Len, Nth. cbn [length nth_error] in Len, Nth.
    set (args := render_args w (program_env w c u) 0 (pc_args c)) in *. exists path, args, (p_env q0), m.
    split; [|split; [rewrite D10, <- Sp, <- Sa, <- Se, Pp, Ar; reflexivity|split; [exact Pm|split]]].
    + destruct (says_path _ _ _ S) as [(v & E & [(_ & N)|(_ & x & T & N)])|(_ & N)]; [congruence| |congruence].
      exists v. split; [auto|]. congruence.
    + intros ys E. destruct (says_args _ _ _ S) as [(v & E' & X)|(N & _)]; [|exfalso; exact (N _ E)].
      rewrite (once_entry _ _ _ _ (says_once _ _ _ S "args" ltac:(in_options)) E' E) in X.
      destruct X as [(zs & Z & F)|((_ & Z) & _)]; [|discriminate]. inversion Z; subst zs. split; [rewrite (Forall2_length _ _ _ F); lia|].
      intros i y t Hy Ht. destruct (Forall2_nth _ _ _ _ _ F Hy) as (x & Hx & T). rewrite (text_fun _ _ _ Ht T). apply Nth. auto.
    + intros N. destruct (says_args _ _ _ S) as [(v & E & _)|(_ & E)]; [exfalso; exact (N _ E)|]. subst args. rewrite E. reflexivity.
Qed.
Lemma configured_listed w lib l c q0 q x : says lib l c -> process_from w c = Ret (Ok q0) -> same_settings q0 q -> configured q x <-> listed l x.
Proof.
  intros S P (_ & _ & _ & _ & _ & _ & _ & Sc & _). apply process_from_ok in P.
  destruct P as (u & g & path & _ & _ & _ & _ & _ & _ & _ & _ & _ & _ & _ & Pc & _). unfold configured. rewrite <- Sc, Pc. unfold listed.
  assert (O := says_once _ _ _ S "capabilities" ltac:(in_options)). split.
  - intros (name & I & L). destruct (says_caps _ _ _ S) as [(v & E & [(ys & -> & F)|(_ & N)])|(_ & N)].
    + apply In_nth_error in I. destruct I as (i & I). rewrite Forall2_lookup in F. specialize (F i). rewrite <- !nth_error_lookup, I in F.
      inversion F as [y ? T Y|]; subst. exists ys, y, name. split; [auto|]. split; [eapply nth_error_In; eauto|auto].
    + rewrite N in I. destruct I.
    + rewrite N in I. destruct I.
  - intros (ys & y & name & E & I & T & L). exists name. split; [|auto]. destruct (says_caps _ _ _ S) as [(v & E' & X)|(N & _)].
    + rewrite (once_entry _ _ _ _ O E' E) in X. destruct X as [(zs & Z & F)|((_ & Z) & _)]; [|discriminate]. inversion Z; subst zs.
      apply In_nth_error in I. destruct I as (i & I). destruct (Forall2_nth _ _ _ _ _ F I) as (nm & N & T').
      rewrite (text_fun _ _ _ T T'). eapply nth_error_In; eauto.
    + exfalso. exact (N _ E).
Qed.

(** * Together *)
Lemma name_number (configs : list proc_config) i j c d : List.NoDup (map pc_name configs) ->
  nth_error configs i = Some c -> nth_error configs j = Some d -> pc_name c = pc_name d -> i = j.
Proof.
  intros ND Hi Hj E. apply (proj1 (NoDup_nth_error _) ND).
  - rewrite map_length. apply nth_error_Some. congruence.
  - rewrite !nth_error_map, Hi, Hj. cbn. congruence.
Qed.
Lemma runs_entry k lib syntax e configs s p i l n id q h fault t0 st x mask ign dir cr ch : SpecYaml.any_order lib -> m_yaml k = read_yaml lib syntax -> ordinary k syntax ->
  SpecEnv.any_order (m_world k) -> consistent (m_world k) ->
  stands k syntax p i (YMap l) -> field l "name" text n -> sole k syntax p i n -> reachable k e configs s ->
  g_procs (s_g s) !! id = Some q -> p_name q = n -> inherited t0 -> fd_reachable t0 st -> launch h fault q st x mask ign dir cr (Runs ch) ->
  runs_as_written (m_world k) l ch /\
  (c_euid (ch_cred ch) <> 0 -> forall z, (z ∈ c_eff (ch_cred ch) <-> listed l z) /\ (z ∈ c_prm (ch_cred ch) <-> listed l z)).
Proof.
  intros AO MY ORD AW CW St Nm So R Hq En I0 F0 L.
  destruct (entry_config k lib syntax AO MY ORD _ _ _ _ _ _ _ St Nm So R) as (id' & c & q' & q0 & Hc & Ec & Sy & P & Hq' & SS).
  destruct (settings_kept _ _ _ _ _ _ R Hq) as (c1 & q1 & Hc1 & P1 & SS1).
  assert (id' = id).
  { destruct (reachable_settings _ _ _ _ R) as (_ & parsed & _ & (ND & _)). eapply name_number; eauto.
    apply process_from_ok in P1. destruct P1 as (_ & _ & _ & _ & _ & _ & _ & _ & _ & _ & _ & N1 & _). destruct SS1 as (N2 & _). congruence. }
  subst id'. assert (q' = q) by congruence. subst q'.
  destruct (launch_runs _ _ _ _ _ _ _ _ _ _ _ I0 F0 L ch eq_refl) as (D & _). split; [eapply dressed_written; eauto|].
  intros U z. assert (U' : p_uid q <> 0) by (destruct D as (_ & D & _); congruence).
  destruct (caps_nonroot _ _ _ _ _ _ _ _ _ _ _ I0 F0 L ch eq_refl U') as (A & B & _).
  rewrite (A z), (B z), (configured_listed _ _ _ _ _ _ z Sy P SS). tauto.
Qed.

Lemma every_program_has_entry k lib syntax e configs s id q : SpecYaml.any_order lib -> m_yaml k = read_yaml lib syntax -> ordinary k syntax ->
  reachable k e configs s -> g_procs (s_g s) !! id = Some q -> exists p i l, stands k syntax p i (YMap l) /\ field l "name" text (p_name q).
Proof.
  intros AO MY ORD R Hq. destruct (settings_kept _ _ _ _ _ _ R Hq) as (c & q0 & Hc & P & (N2 & _)).
  apply process_from_ok in P. destruct P as (_ & _ & _ & _ & _ & _ & _ & _ & _ & _ & _ & N1 & _).
  destruct (reachable_settings _ _ _ _ R) as (_ & parsed & RA & (_ & Nam & _)).
  assert (I : In (pc_name c) (map pc_name configs)) by (apply in_map; eapply nth_error_In; eauto).
  apply Nam, in_map_iff in I. destruct I as (f & Ef & I). apply in_concat in I. destruct I as (cs & I1 & I2).
  apply In_nth_error in I1, I2. destruct I1 as (j & I1), I2 as (i & I2).
  destruct (parsed_stands k lib syntax MY ORD parsed RA) as (ps & _ & _ & B). destruct (B _ _ _ _ I1 I2) as (p & l & _ & St & D).
  exists p, i, l. split; [auto|]. rewrite <- N2, N1, <- Ef. apply (says_name _ _ _ (decode_program_says _ _ _ AO D)).
Qed.
