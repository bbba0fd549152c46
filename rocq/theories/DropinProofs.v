(** Lemmas from all the entries for one program to the program that is run. *)
From stdpp Require Import gmap strings.
From Coq Require Import ZArith List Bool Lia Permutation.
From Verif Require Import Base RStr ConfigModel ProcessModel EnvModel DepModel ManagerModel SysModel MainModel ChildModel FdModel
  SpecConfig ConfigProofs SpecEnv SpecMain SpecRun SpecChild EnvProofs MainProofs RunStep RunInv RunSteps4 ChildThms.
From Verif Require Import YamlModel SpecYaml YamlProofs SpecEnd EndProofs SpecDropin.
Import ListNotations.
Local Open Scope string_scope.
Local Open Scope list_scope.
Local Open Scope Z_scope.

(** * Lists *)
Lemma nodup_app {A} (l m : list A) : List.NoDup l -> List.NoDup m -> (forall x, In x l -> In x m -> False) -> List.NoDup (l ++ m).
Proof.
  induction 1 as [|x l N ND IH]; intros M D; [exact M|]. cbn [app]. constructor.
  - intros I. apply in_app_or in I. destruct I as [I|I]; [auto|]. apply (D x); [left; reflexivity|exact I].
  - apply IH; [exact M|]. intros y I J. apply (D y); [right; exact I|exact J].
Qed.
Section Annotate.
  Context {L C : Type} (P : list nat -> nat -> L -> C -> Prop).
  Lemma annotate_file p cs : forall i0, (forall i c, nth_error cs i = Some c -> exists l, P p (i0 + i)%nat l c) ->
    exists ann : list ((list nat * nat) * L), Forall2 (fun a c => P (fst (fst a)) (snd (fst a)) (snd a) c) ann cs /\ List.NoDup (map fst ann) /\
      (forall a, In a ann -> fst (fst a) = p /\ (i0 <= snd (fst a))%nat) /\
      (forall i, (i < length cs)%nat -> In (p, (i0 + i)%nat) (map fst ann)).
  Proof.
    induction cs as [|c cs IH]; intros i0 H.
    - exists []. split; [constructor|]. split; [constructor|]. split; [intros a []|]. intros i Hi. cbn in Hi. lia.
    - destruct (H 0%nat c eq_refl) as (l & Hl). rewrite Nat.add_0_r in Hl.
      destruct (IH (S i0)) as (ann & F & ND & A & B).
      { intros i c' Hi. destruct (H (S i) c' Hi) as (l' & Hl'). exists l'. replace (S i0 + i)%nat with (i0 + S i)%nat by lia. exact Hl'. }
      exists (((p, i0), l) :: ann). split; [constructor; auto|]. split; [|split].
      + cbn [map fst]. constructor; [|exact ND]. intros I. apply in_map_iff in I. destruct I as (a & E & I). destruct (A a I) as (_ & X). rewrite E in X. cbn in X. lia.
      + intros a [<-|I]; [cbn; split; [reflexivity|lia]|]. destruct (A a I) as (X & Y). split; [exact X|lia].
      + intros [|i] Hi; [left; cbn; f_equal; lia|right]. cbn in Hi. replace (i0 + S i)%nat with (S i0 + i)%nat by lia. apply B. lia.
  Qed.
  Lemma annotate parsed : forall ps, List.NoDup ps ->
    (forall j cs i c, nth_error parsed j = Some cs -> nth_error cs i = Some c -> exists p l, nth_error ps j = Some p /\ P p i l c) ->
    exists ann : list ((list nat * nat) * L), Forall2 (fun a c => P (fst (fst a)) (snd (fst a)) (snd a) c) ann (concat parsed) /\ List.NoDup (map fst ann) /\
      (forall a, In a ann -> In (fst (fst a)) ps) /\
      (forall j cs i c p, nth_error parsed j = Some cs -> nth_error cs i = Some c -> nth_error ps j = Some p -> In (p, i) (map fst ann)).
  Proof.
    induction parsed as [|cs parsed IH]; intros ps ND H.
    - exists []. split; [constructor|]. split; [constructor|]. split; [intros a []|]. intros [|j] cs i c p E; discriminate.
    - destruct ps as [|p ps].
      + assert (cs = []) by (destruct cs as [|c cs]; [reflexivity|]; destruct (H 0%nat _ 0%nat c eq_refl eq_refl) as (p & l & E & _); discriminate). subst cs.
        destruct (IH [] ND) as (ann & F & N & A & B).
        { intros j cs i c Hj Hi. destruct (H (S j) cs i c Hj Hi) as (p & l & E & _). discriminate. }
        exists ann. split; [exact F|]. split; [exact N|]. split; [exact A|]. intros j cs i c p _ _ E. destruct j; discriminate.
      + inversion ND as [|? ? NI ND']; subst.
        destruct (IH ps ND') as (ann & F & N & A & B); [intros j cs' i c Hj Hi; exact (H (S j) cs' i c Hj Hi)|].
        destruct (annotate_file p cs 0) as (ann0 & F0 & N0 & A0 & B0).
        { intros i c Hi. destruct (H 0%nat cs i c eq_refl Hi) as (p' & l & E & X). inversion E; subst. eauto. }
        exists (ann0 ++ ann). split; [cbn [concat]; apply Forall2_app; auto|]. split; [|split].
        * rewrite map_app. apply nodup_app; [exact N0|exact N|]. intros x I1 I2. apply in_map_iff in I1, I2.
          destruct I1 as (a & E1 & I1), I2 as (b & E2 & I2). destruct (A0 a I1) as (X & _). assert (Y := A b I2). apply NI. rewrite <- X, E1, <- E2. exact Y.
        * intros a I. apply in_app_or in I. destruct I as [I|I]; [left; symmetry; apply (A0 a I)|right; auto].
        * intros [|j] cs' i c p' Hj Hi Hp; rewrite map_app; apply in_or_app; cbn in Hj, Hp.
          -- left. inversion Hj; inversion Hp; subst. apply (B0 i). apply nth_error_Some. congruence.
          -- right. eapply B; eauto.
  Qed.
End Annotate.
Lemma Forall2_filter {A B} (R : A -> B -> Prop) (f : B -> bool) (l : list A) m : Forall2 R l m ->
  exists l', Forall2 (fun x y => R x y /\ f y = true) l' (List.filter f m) /\ (forall x, In x l' -> In x l) /\
    (forall x, In x l -> In x l' \/ exists y, R x y /\ f y = false) /\
    (forall (K : Type) (g : A -> K), List.NoDup (map g l) -> List.NoDup (map g l')).
Proof.
  induction 1 as [|x y l m H F (l' & F' & S1 & S2 & N)]; [exists []; cbn; auto|].
  cbn [List.filter]. destruct (f y) eqn:E.
  - exists (x :: l'). split; [constructor; auto|]. split; [intros z [<-|I]; [left; reflexivity|right; auto]|].
    split; [intros z [<-|I]; [left; left; reflexivity|destruct (S2 z I); [left; right; auto|right; auto]]|].
    intros K g ND. cbn [map] in *. inversion ND as [|? ? NI ND']; subst. constructor; [|auto]. intros I. apply NI.
    apply in_map_iff in I. destruct I as (z & E' & I). rewrite <- E'. apply in_map. auto.
  - exists l'. split; [exact F'|]. split; [intros z I; right; auto|].
    split; [intros z [<-|I]; [right; exists y; auto|auto]|].
    intros K g ND. cbn [map] in ND. inversion ND; subst. auto.
Qed.

Lemma Forall2_exists {A B} (R : A -> B -> Prop) (P : A -> Prop) (Q : B -> Prop) l m : Forall2 R l m -> (forall x y, R x y -> (P x <-> Q y)) ->
  (exists x, In x l /\ P x) <-> (exists y, In y m /\ Q y).
Proof.
  intros F H. induction F as [|a b l m Hab F IH]; [split; intros (? & [] & _)|]. split.
  - intros (x & [<-|I] & X); [exists b; split; [left; reflexivity|apply (H _ _ Hab); auto]|].
    destruct (proj1 IH (ex_intro _ x (conj I X))) as (y & Iy & Y). exists y. split; [right; auto|auto].
  - intros (x & [<-|I] & X); [exists a; split; [left; reflexivity|apply (H _ _ Hab); auto]|].
    destruct (proj2 IH (ex_intro _ x (conj I X))) as (y & Iy & Y). exists y. split; [right; auto|auto].
Qed.
Lemma Forall2_two {A B} (R : A -> B -> Prop) (P : A -> Prop) (Q : B -> Prop) l m : Forall2 R l m -> (forall x y, R x y -> P x -> Q y) -> two P l -> two Q m.
Proof.
  intros F H (l1 & a & l2 & b & l3 & -> & Pa & Pb).
  apply Forall2_app_inv_l in F. destruct F as (m1 & r1 & F1 & F & ->).
  inversion F as [|? a' ? ? Ra F2]; subst. apply Forall2_app_inv_l in F2. destruct F2 as (m2 & r2 & F2 & F3 & ->).
  inversion F3 as [|? b' ? ? Rb F4]; subst. exists m1, a', m2, b'. eexists. split; [reflexivity|]. split; eauto.
Qed.

(** * Which entries there are *)
Section Entries.
  Context (k : machine) (lib : library) (syntax : string -> option yaml).
  Context (AO : SpecYaml.any_order lib) (MY : m_yaml k = read_yaml lib syntax) (ORD : ordinary k syntax).

  Lemma stands_fun parsed p i y y' : read_as k parsed -> stands k syntax p i y -> stands k syntax p i y' -> y = y'.
  Proof using AO MY.
    intros (ps & contents & (ND & F & All) & M) (s & doc & es & Fa & Sy & En & Ne) (s' & doc' & es' & Fa' & Sy' & En' & Ne').
    assert (s' = s) by (eapply file_at_fun; eauto). subst s'. rewrite Sy in Sy'. inversion Sy'; subst doc'.
    assert (I := All _ _ Fa). apply In_nth_error in I. destruct I as (j & Hj).
    assert (Hs : nth_error contents j = Some s).
    { rewrite Forall2_lookup in F. specialize (F j). rewrite <- !nth_error_lookup, Hj in F. inversion F as [? s' X Y|]; subst. f_equal. eapply file_at_fun; eauto. }
    assert (Hp : nth_error (map Some parsed) j = Some (m_yaml k s)) by (rewrite <- M; apply map_nth_error; auto).
    rewrite nth_error_map in Hp. destruct (nth_error parsed j) as [cs|] eqn:Ep; [|discriminate]. inversion Hp as [Hc].
    rewrite MY in Hc. unfold read_yaml in Hc. rewrite Sy in Hc. symmetry in Hc. apply (config_sound lib AO) in Hc.
    destruct Hc as [(l & E & _ & O & _)|(l & E & _)]; [|discriminate]. inversion E; subst l.
    assert (X := once_entry _ _ _ _ O En En'). inversion X; subst. congruence.
  Qed.
  Lemma field_name l c n : says lib l c -> field l "name" text n -> pc_name c = n.
  Proof using.
    intros Sy (w & E2 & T2). destruct (says_name _ _ _ Sy) as (v & E1 & T1).
    assert (v = w) by (apply (once_entry l "name"); auto; apply (says_once _ _ _ Sy); simpl; auto). subst. eapply text_fun; eauto.
  Qed.

  Lemma entries_fragments parsed n : read_as k parsed ->
    exists ls, entries_of k syntax n ls /\ Forall2 (says lib) ls (fragments n (concat parsed)).
  Proof.
    intros RA. destruct (parsed_stands k lib syntax MY ORD parsed RA) as (ps & ND & A & B).
    destruct (annotate (fun p i l c => stands k syntax p i (YMap l) /\ decode_program lib (YMap l) = Some c) parsed ps ND) as (ann & F & N & _ & Cov).
    { intros j cs i c Hj Hi. destruct (B j cs i c Hj Hi) as (p & l & Hp & X & Y). eauto. }
    destruct (Forall2_filter _ (fun c => String.eqb (pc_name c) n) _ _ F) as (sel & F' & S1 & S2 & N').
    exists (map snd sel). split.
    - exists (map fst sel). split; [apply N'; exact N|]. split.
      + assert (X : List.Forall (fun a => stands k syntax (fst (fst a)) (snd (fst a)) (YMap (snd a)) /\ field (snd a) "name" text n) sel).
        { clear -F' AO. induction F' as [|a c l m ((St & D) & E) F IH]; constructor; [|exact IH]. split; [exact St|].
          apply String.eqb_eq in E. rewrite <- E. apply (says_name _ _ _ (decode_program_says _ _ _ AO D)). }
        clear -X. induction X; cbn [map]; constructor; auto.
      + intros p i l St Nm. destruct (A _ _ _ St) as (j & cs & c & Hp & Hj & Hi & D).
        assert (I := Cov _ _ _ _ _ Hj Hi Hp). apply in_map_iff in I. destruct I as (a & E & I).
        destruct (S2 a I) as [I'|(y & (St' & D') & X)]; [apply in_map_iff; exists a; auto|]. exfalso.
        rewrite E in St'. cbn [fst snd] in St'. assert (Y := stands_fun _ _ _ _ _ RA St St'). inversion Y as [Y'].
        rewrite <- Y' in D'. assert (Z := field_name _ _ _ (decode_program_says _ _ _ AO D') Nm). apply String.eqb_neq in X. contradiction.
    - unfold fragments. clear -F' AO. induction F' as [|a c l m ((St & D) & E) F IH]; cbn [map]; constructor; [|exact IH].
      apply decode_program_says; auto.
  Qed.

  (** There is one list of the entries but for the order. *)
  Lemma entries_perm parsed n ls ls' : read_as k parsed -> entries_of k syntax n ls -> entries_of k syntax n ls' -> Permutation ls ls'.
  Proof using AO MY.
    intros RA (ps & ND & F & All) (ps' & ND' & F' & All').
    assert (T : forall ps ls, Forall2 (fun p l => stands k syntax (fst p) (snd p) (YMap l) /\ field l "name" text n) ps ls ->
      exists ann : list ((list nat * nat) * list (yaml * yaml)), map fst ann = ps /\ map snd ann = ls /\
        forall a, In a ann -> stands k syntax (fst (fst a)) (snd (fst a)) (YMap (snd a)) /\ field (snd a) "name" text n).
    { clear. intros ps ls. induction 1 as [|p l ps ls H F (ann & <- & <- & X)]; [exists []; cbn; intuition|].
      exists ((p, l) :: ann). split; [reflexivity|]. split; [reflexivity|]. intros a [<-|I]; auto. }
    destruct (T _ _ F) as (ann & E1 & <- & X), (T _ _ F') as (ann' & E1' & <- & X'). apply Permutation_map.
    apply NoDup_Permutation; [apply (NoDup_map_inv fst); congruence|apply (NoDup_map_inv fst); congruence|]. subst ps ps'. intros ((p, i), l). split; intros I.
    - destruct (X _ I) as (St & Nm). cbn in St, Nm. assert (J := All' _ _ _ St Nm). apply in_map_iff in J. destruct J as (((p', i'), l') & E & J).
      cbn in E. inversion E; subst. destruct (X' _ J) as (St' & _). cbn in St'. assert (Y := stands_fun _ _ _ _ _ RA St St'). inversion Y; subst. exact J.
    - destruct (X' _ I) as (St & Nm). cbn in St, Nm. assert (J := All _ _ _ St Nm). apply in_map_iff in J. destruct J as (((p', i'), l') & E & J).
      cbn in E. inversion E; subst. destruct (X _ J) as (St' & _). cbn in St'. assert (Y := stands_fun _ _ _ _ _ RA St St'). inversion Y; subst. exact J.
  Qed.
End Entries.

(** * One entry and its fragment *)
Section One.
  Context (lib : library) (l : list (yaml * yaml)) (c : proc_config) (Y : says lib l c).
  Lemma gives_field {A} (R : yaml -> A -> Prop) key o : In key options -> (forall v x y, R v x -> R v y -> x = y) ->
    field_or l key (optional R) None o -> forall x, o = Some x <-> gives l key R x.
  Proof using Y.
    intros I Fn H x. assert (O := says_once _ _ _ Y key I). split.
    - intros ->. destruct H as [(w & E & [(_ & N)|(N & z & Rz & X)])|(_ & N)]; [discriminate| |discriminate]. inversion X; subst. exists w. auto.
    - intros (v & E & N & Rv). destruct H as [(w & E' & [(N' & _)|(_ & z & Rz & ->)])|(N' & _)].
      + exfalso. apply N. rewrite (once_entry _ _ _ _ O E E'). exact N'.
      + rewrite (once_entry _ _ _ _ O E' E) in Rz. f_equal. eapply Fn; eauto.
      + exfalso. exact (N' v E).
  Qed.
  Lemma given_field {A} (R : yaml -> A -> Prop) key o : In key options -> field_or l key (optional R) None o -> o <> None <-> given l key.
  Proof using Y.
    intros I H. assert (O := says_once _ _ _ Y key I). split.
    - intros X. destruct H as [(w & E & [(_ & N)|(N & _)])|(_ & N)]; [congruence| |congruence]. exists w. auto.
    - intros (v & E & N) ->. destruct H as [(w & E' & [(N' & _)|(_ & z & _ & X)])|(N' & _)]; [|discriminate|exact (N' v E)].
      apply N. rewrite (once_entry _ _ _ _ O E E'). exact N'.
  Qed.
  Lemma lists_field key xs : In key options -> field_or l key (list_of lib text) [] xs -> forall x, In x xs <-> lists l key x.
  Proof using Y.
    intros I H x. assert (O := says_once _ _ _ Y key I). split.
    - intros J. destruct H as [(v & E & [(ys & -> & F)|(_ & N)])|(_ & N)]; [|rewrite N in J; destruct J|rewrite N in J; destruct J].
      destruct (proj2 (Forall2_exists text (fun y => exists z, z = x /\ text y z) (fun z => z = x) ys xs F ltac:(intros a b T; split; [intros (z & <- & T'); eapply text_fun; eauto|intros <-; eauto])))
        as (y & Iy & z & -> & T); [exists x; auto|]. exists ys, y. auto.
    - intros (ys & y & E & Iy & T). destruct H as [(v & E' & X)|(N & _)]; [|exfalso; exact (N _ E)].
      rewrite (once_entry _ _ _ _ O E' E) in X. destruct X as [(zs & Z & F)|((_ & Z) & _)]; [|discriminate]. inversion Z; subst zs.
      apply In_nth_error in Iy. destruct Iy as (i & Iy). destruct (Forall2_nth _ _ _ _ _ F Iy) as (nm & N & T').
      rewrite (text_fun _ _ _ T T'). eapply nth_error_In; eauto.
  Qed.
  Lemma pty_field : pc_pty c = true <-> field l "pty" flag true.
  Proof using Y.
    assert (O := says_once _ _ _ Y "pty" ltac:(in_options)). destruct (says_pty _ _ _ Y) as [(v & E & H)|(N & ->)].
    - split; [intros X; rewrite X in H; exists v; auto|]. intros (w & E' & H'). rewrite (once_entry _ _ _ _ O E' E) in H'.
      destruct (pc_pty c); [reflexivity|]. destruct H as (t & -> & I), H' as (t' & E0 & I'). inversion E0; subst t'. cbn in I, I'.
      exfalso. destruct I as [<-|[<-|[<-|[]]]]; destruct I' as [I'|[I'|[I'|[]]]]; discriminate.
    - split; [discriminate|]. intros (v & E & _). exfalso. exact (N v E).
  Qed.
End One.
Lemma kind_fun lib v x y : kind lib v x -> kind lib v y -> x = y.
Proof. intros A B. apply (type_means lib) in A, B. congruence. Qed.

(** * Merging *)
Lemma two_none {A} (P : A -> Prop) l : two P l -> exists x, In x l /\ P x.
Proof. intros (l1 & a & l2 & b & l3 & -> & Pa & _). exists a. split; [apply in_elt|exact Pa]. Qed.
Lemma merged_together lib ls fs c : Forall2 (says lib) ls fs -> same_name fs -> merge_fragments fs = Ret (Ok c) -> pc_path c <> None -> together lib ls c.
Proof.
  intros F Hs E Hp. assert (Hne : fs <> []) by (intros ->; discriminate).
  destruct (merge_fragments_spec fs Hne Hs) as [(r & E' & I)|(e & E' & _)]; [|congruence]. assert (r = c) by congruence. subst r.
  assert (He : Exists (has pc_path) fs) by (apply (path_shape _ _ (ai_shape _ _ I)); exact Hp).
  assert (NC := acc_inv_no_conflict _ _ I He).
  destruct (merge_fields fs c Hs He E) as (M1 & M2 & M3 & M4 & M5 & M6 & M7 & M8 & M9).
  destruct (merge_contents fs c Hs He E) as (l1 & f & l2 & HH & Hf & B1 & B2 & Nm & _ & Ty & Ar & En).
  assert (SE : forall {A} (R : yaml -> A -> Prop) key (fld : proc_config -> option A), In key options -> (forall v x y, R v x -> R v y -> x = y) ->
    (forall l f, says lib l f -> field_or l key (optional R) None (fld f)) -> the_only fld fs (fld c) -> some_entry ls key R (fld c)).
  { intros A R key fld Io Fn Sa T x. rewrite (T x). symmetry. apply (Forall2_exists (says lib)); [exact F|].
    intros l f' Y. symmetry. apply (gives_field lib l f' Y R key (fld f') Io Fn (Sa l f' Y)). }
  assert (ST : forall {A} (R : yaml -> A -> Prop) key (fld : proc_config -> option A), In key options ->
    (forall l f, says lib l f -> field_or l key (optional R) None (fld f)) -> two (fun l => given l key) ls -> two (has fld) fs).
  { intros A R key fld Io Sa. apply (Forall2_two (says lib)); [exact F|]. intros l f' Y G. apply (given_field lib l f' Y R key (fld f') Io (Sa l f' Y)). exact G. }
  assert (UN : forall key (fld : proc_config -> list string), In key options -> (forall l f, says lib l f -> field_or l key (list_of lib text) [] (fld f)) ->
    (forall x, In x (fld c) <-> exists f, In f fs /\ In x (fld f)) -> forall x, In x (fld c) <-> exists l, In l ls /\ lists l key x).
  { intros key fld Io Sa U x. rewrite (U x). symmetry. apply (Forall2_exists (says lib)); [exact F|].
    intros l f' Y. symmetry. apply (lists_field lib l f' Y key (fld f') Io (Sa l f' Y)). }
  assert (US : forall (fld : proc_config -> list string), ((2 <= length fs)%nat -> union_of fld fs (fld c)) -> forall x, In x (fld c) <-> exists f, In f fs /\ In x (fld f)).
  { intros fld U x. destruct fs as [|f1 [|f2 fs']]; [congruence| |apply U; cbn; lia]. rewrite (M9 f1 eq_refl).
    split; [intros J; exists f1; split; [left; reflexivity|exact J]|intros (g & [<-|[]] & J); exact J]. }
  constructor.
  - intros l Il. apply In_nth_error in Il. destruct Il as (i & Il). destruct (Forall2_nth _ _ _ _ _ F Il) as (f' & If & Y).
    rewrite Nm, (Hs f f'); [apply (says_name _ _ _ Y)|rewrite HH; apply in_elt|eapply nth_error_In; eauto].
  - unfold conflict in NC. intros key Ik T. apply NC. cbn [single In] in Ik. destruct Ik as [<-|[<-|[<-|[<-|[<-|[<-|[]]]]]]].
    + left. apply (ST _ text "path" pc_path ltac:(in_options)); [intros l0 f0 Y0; exact (says_path _ _ _ Y0)|exact T].
    + right; left. apply (ST _ text "workdir" pc_workdir ltac:(in_options)); [intros l0 f0 Y0; exact (says_workdir _ _ _ Y0)|exact T].
    + do 2 right; left. apply (ST _ number "uid" pc_uid ltac:(in_options)); [intros l0 f0 Y0; exact (says_uid _ _ _ Y0)|exact T].
    + do 3 right; left. apply (ST _ number "gid" pc_gid ltac:(in_options)); [intros l0 f0 Y0; exact (says_gid _ _ _ Y0)|exact T].
    + do 4 right; left. apply (ST _ text "user" pc_user ltac:(in_options)); [intros l0 f0 Y0; exact (says_user _ _ _ Y0)|exact T].
    + do 5 right; left. apply (ST _ text "group" pc_group ltac:(in_options)); [intros l0 f0 Y0; exact (says_group _ _ _ Y0)|exact T].
  - intros l t Il (v & Ev & Kv). apply In_nth_error in Il. destruct Il as (i & Il). destruct (Forall2_nth _ _ _ _ _ F Il) as (f' & If & Y).
    apply (given_field lib l f' Y text "path" (pc_path f') ltac:(in_options) (says_path _ _ _ Y)). intros Np. apply NC. do 6 right. apply Exists_exists.
    exists f'. split; [eapply nth_error_In; eauto|]. split; [exact Np|]. exists t.
    destruct (says_type _ _ _ Y) as [(w & Ew & Kw)|(N & _)]; [|exfalso; exact (N v Ev)].
    rewrite (once_entry _ _ _ _ (says_once _ _ _ Y "type" ltac:(in_options)) Ew Ev) in Kw. eapply kind_fun; eauto.
  - exact Hp.
  - apply (SE _ text "path" pc_path ltac:(in_options) text_fun); [intros l0 f0 Y0; exact (says_path _ _ _ Y0)|exact M1].
  - apply (SE _ text "workdir" pc_workdir ltac:(in_options) text_fun); [intros l0 f0 Y0; exact (says_workdir _ _ _ Y0)|exact M2].
  - apply (SE _ number "uid" pc_uid ltac:(in_options) number_fun); [intros l0 f0 Y0; exact (says_uid _ _ _ Y0)|exact M3].
  - apply (SE _ number "gid" pc_gid ltac:(in_options) number_fun); [intros l0 f0 Y0; exact (says_gid _ _ _ Y0)|exact M4].
  - apply (SE _ text "user" pc_user ltac:(in_options) text_fun); [intros l0 f0 Y0; exact (says_user _ _ _ Y0)|exact M5].
  - apply (SE _ text "group" pc_group ltac:(in_options) text_fun); [intros l0 f0 Y0; exact (says_group _ _ _ Y0)|exact M6].
  - apply (UN "before" pc_before ltac:(in_options)); [intros l0 f0 Y0; exact (says_before _ _ _ Y0)|]. apply US. intros L. apply (M8 L).
  - apply (UN "after" pc_after ltac:(in_options)); [intros l0 f0 Y0; exact (says_after _ _ _ Y0)|]. apply US. intros L. apply (M8 L).
  - apply (UN "capabilities" pc_caps ltac:(in_options)); [intros l0 f0 Y0; exact (says_caps _ _ _ Y0)|]. apply US. intros L. apply (M8 L).
  - rewrite M7. symmetry. apply (Forall2_exists (says lib)); [exact F|]. intros l f' Y. symmetry. apply pty_field with (lib := lib). exact Y.
  - rewrite HH in F. apply Forall2_app_inv_r in F. destruct F as (k1 & r1 & F1 & F & ->). inversion F as [|l ? k2 ? Y F2]; subst.
    exists l, (rev k1 ++ k2), (map pc_args (f :: rev l1 ++ l2)), (map pc_env (f :: rev l1 ++ l2)).
    assert (FF : Forall2 (says lib) (l :: rev k1 ++ k2) (f :: rev l1 ++ l2)).
    { constructor; [exact Y|]. apply Forall2_app; [|exact F2]. clear -F1. induction F1; cbn [rev]; [constructor|]. apply Forall2_app; auto. }
    split; [rewrite <- Permutation_middle; constructor; apply Permutation_app_tail; symmetry; apply Permutation_rev|].
    split; [apply (given_field lib l f Y text "path" (pc_path f) ltac:(in_options) (says_path _ _ _ Y)); exact Hf|].
    split; [rewrite Ty; exact (says_type _ _ _ Y)|].
    split; [clear -FF; induction FF as [|l0 f0 ? ? Y0]; cbn [map]; constructor; [exact (says_args _ _ _ Y0)|assumption]|].
    split; [rewrite Ar; cbn [map concat]; rewrite map_app, concat_app; reflexivity|].
    split; [clear -FF; induction FF as [|l0 f0 ? ? Y0]; cbn [map]; constructor; [exact (says_env _ _ _ Y0)|assumption]|].
    rewrite En; cbn [map concat]; rewrite map_app, concat_app; reflexivity.
Qed.
Lemma together_perm lib ls ls' c : Permutation ls ls' -> together lib ls c -> together lib ls' c.
Proof.
  intros P T. assert (I : forall l, In l ls <-> In l ls') by (intros l; split; apply Permutation_in; [exact P|symmetry; exact P]).
  assert (EX : forall Q : list (yaml * yaml) -> Prop, (exists l, In l ls /\ Q l) <-> (exists l, In l ls' /\ Q l))
    by (intros Q; split; intros (l & J & X); exists l; split; [apply I; exact J|exact X|apply I; exact J|exact X]).
  destruct T as [T1 T2 T3 T4 T5 T6 T7 T8 T9 T10 T11 T12 T13 T14 T15].
  constructor; try (intros x; rewrite <- EX; auto; fail).
  - intros l J. apply T1, I, J.
  - intros key Ik X. apply (T2 key Ik). eapply two_permutation; [symmetry; exact P|exact X].
  - intros l t J. apply T3, I, J.
  - exact T4.
  - rewrite <- EX. exact T14.
  - destruct T15 as (l & rest & args & envs & P' & X). exists l, rest, args, envs. split; [rewrite P'; exact P|exact X].
Qed.

(** * Runs *)
Lemma entries_ne k lib syntax parsed n ls : SpecYaml.any_order lib -> m_yaml k = read_yaml lib syntax -> ordinary k syntax ->
  read_as k parsed -> entries_of k syntax n ls -> ls <> [] -> In n (map pc_name (concat parsed)).
Proof.
  intros AO MY ORD RA EO NE. destruct (entries_fragments k lib syntax AO MY ORD parsed n RA) as (ls0 & EO0 & F).
  assert (P := entries_perm k lib syntax AO MY parsed n _ _ RA EO EO0). destruct ls0 as [|l0 ls0]; [apply Permutation_sym, Permutation_nil in P; contradiction|].
  apply fragments_ne. intros E. rewrite E in F. inversion F.
Qed.
Lemma loaded_together k lib syntax parsed configs c ls : SpecYaml.any_order lib -> m_yaml k = read_yaml lib syntax -> ordinary k syntax ->
  read_as k parsed -> merged (concat parsed) configs -> In c configs -> pc_path c <> None -> entries_of k syntax (pc_name c) ls -> together lib ls c.
Proof.
  intros AO MY ORD RA (_ & _ & Mer) Ic Hp EO. destruct (entries_fragments k lib syntax AO MY ORD parsed (pc_name c) RA) as (ls0 & EO0 & F).
  apply (together_perm lib ls0); [eapply entries_perm; eauto|]. eapply merged_together; [exact F|apply fragments_same|apply Mer; exact Ic|exact Hp].
Qed.
Lemma loop_loaded k configs a : honest k -> run k = Ret (EntersLoop configs a) ->
  exists parsed, read_as k parsed /\ merged (concat parsed) configs /\ Forall2 (fun c p => process_from (m_world k) c = Ret (Ok p)) configs (a_processes a).
Proof.
  intros Hk R. destruct (run_exact k _ Hk R) as [(_ & E)|(_ & [(_ & E)|(_ & parsed & RA & [(_ & E)|(_ & cs & M & [(_ & E)|[(_ & _ & E)|(_ & _ & a' & E & F & _)]])])])]; try discriminate.
  inversion E; subst cs a'. eauto.
Qed.
Lemma run_together k lib syntax configs a n ls : SpecYaml.any_order lib -> m_yaml k = read_yaml lib syntax -> ordinary k syntax -> honest k ->
  run k = Ret (EntersLoop configs a) -> entries_of k syntax n ls -> ls <> [] -> exists c, In c configs /\ pc_name c = n /\ together lib ls c.
Proof.
  intros AO MY ORD Hk R EO NE. destruct (loop_loaded k configs a Hk R) as (parsed & RA & M & F).
  assert (I := entries_ne k lib syntax parsed n ls AO MY ORD RA EO NE). apply (proj1 (proj2 M)) in I. apply in_map_iff in I. destruct I as (c & <- & I).
  exists c. split; [exact I|]. split; [reflexivity|]. eapply loaded_together; eauto.
  apply In_nth_error in I. destruct I as (i & I). destruct (Forall2_nth _ _ _ _ _ F I) as (p & _ & P). apply process_from_ok in P.
  destruct P as (u & g & path & _ & _ & Pp & _). congruence.
Qed.
Lemma together_not_contradictory lib ls c : together lib ls c -> ~ contradictory lib ls.
Proof.
  intros T [(key & Ik & X)|[(l & t & Il & Ft & N)|N]].
  - exact (to_single _ _ _ T key Ik X).
  - exact (N (to_cronjob _ _ _ T l t Il Ft)).
  - destruct (to_main _ _ _ T) as (l & rest & args & envs & P & G & _). apply (N l); [|exact G]. eapply Permutation_in; [exact P|left; reflexivity].
Qed.
Lemma contradictory_refused k lib syntax configs a n ls : SpecYaml.any_order lib -> m_yaml k = read_yaml lib syntax -> ordinary k syntax -> honest k ->
  entries_of k syntax n ls -> ls <> [] -> contradictory lib ls -> run k <> Ret (EntersLoop configs a).
Proof.
  intros AO MY ORD Hk EO NE C R. destruct (run_together k lib syntax configs a n ls AO MY ORD Hk R EO NE) as (c & _ & _ & T).
  exact (together_not_contradictory lib ls c T C).
Qed.

Lemma not_given_some {A} ls key (R : yaml -> A -> Prop) o : some_entry ls key R o -> (forall l, In l ls -> not_given l key) -> o = None.
Proof.
  intros E N. destruct o as [x|]; [|reflexivity]. destruct (proj1 (E x) eq_refl) as (l & I & v & Ev & Nv & _). exfalso. apply Nv, (N l I v Ev).
Qed.
Lemma dressed_together w lib ls c q0 q ch : SpecEnv.any_order w -> consistent w -> together lib ls c -> process_from w c = Ret (Ok q0) ->
  same_settings q0 q -> dressed q ch -> runs_together lib w ls ch.
Proof.
  intros AO (HU & HG) T P (_ & Sp & Sa & Sd & Su & Sg & _ & _ & Se & _) (D1 & D2 & D3 & D4 & D5 & D6 & D7 & _ & D9 & D10).
  apply process_from_ok in P. destruct P as (u & g & path & Us & Gs & Pa & _ & Fl & Ar & Pu & Pg & _ & Pp & _ & _ & Wd & _).
  rewrite <- Su, Pu in D1, D2, D3. rewrite <- Sg, Pg in D4, D5, D6, D7.
  constructor.
  - intros l m I X. assert (E : pc_uid c = Some m) by (apply (to_uid _ _ _ T); eauto). rewrite E in Us. apply selects_id, HU in Us. rewrite Us in *. auto.
  - intros l m I X. assert (E : pc_user c = Some m) by (apply (to_user _ _ _ T); eauto). rewrite E in Us. apply selects_name in Us. exists u. auto.
  - intros N. rewrite (not_given_some _ _ _ _ (to_uid _ _ _ T) (fun l I => proj1 (N l I))), (not_given_some _ _ _ _ (to_user _ _ _ T) (fun l I => proj2 (N l I))) in Us.
    apply selects_root, HU in Us. rewrite Us in *. auto.
  - intros l m I X. assert (E : pc_gid c = Some m) by (apply (to_gid _ _ _ T); eauto). rewrite E in Gs. apply selects_id, HG in Gs. rewrite Gs in *. auto.
  - intros l m I X. assert (E : pc_group c = Some m) by (apply (to_group _ _ _ T); eauto). rewrite E in Gs. apply selects_name in Gs. exists g. auto.
  - intros N. rewrite (not_given_some _ _ _ _ (to_gid _ _ _ T) (fun l I => proj1 (N l I))), (not_given_some _ _ _ _ (to_group _ _ _ T) (fun l I => proj2 (N l I))) in Gs.
    apply selects_root, HG in Gs. rewrite Gs in *. auto.
  - intros l d I X. assert (E : pc_workdir c = Some d) by (apply (to_workdir _ _ _ T); eauto). rewrite D9, <- Sd, Wd, E. reflexivity.
  - intros N. rewrite D9, <- Sd, Wd, (not_given_some _ _ _ _ (to_workdir _ _ _ T) N). reflexivity.
  - destruct (to_main _ _ _ T) as (l & rest & raws & envs & Pm & G & Ty & Fa & Ea & Fe & Ee).
    exists l, rest, path, (render_args w (program_env w c u) 0 (pc_args c)), (p_env q0), (convert_env w (pc_env c) u), u, (pc_type c), raws, envs.
    split; [exact Pm|]. split.
    { destruct (proj1 (to_path _ _ _ T path) Pa) as (l' & Il' & X). assert (Il : In l' (l :: rest)) by (eapply Permutation_in; [symmetry; exact Pm|exact Il']).
      destruct Il as [<-|Il]; [exact X|]. exfalso. apply (to_single _ _ _ T "path"); [left; reflexivity|].
      apply (two_permutation _ _ _ Pm). apply in_split in Il. destruct Il as (r1 & r2 & ->). exists [], l, r1, l', r2. split; [reflexivity|]. split; [exact G|].
      destruct X as (v & Ev & Nv & _). exists v. auto. }
    split; [rewrite D10, <- Sp, <- Sa, <- Se, Pp, Ar; reflexivity|]. split; [exact Ty|]. split; [symmetry; exact D1|]. split; [exact Fa|]. split; [exact Fe|].
    split; [rewrite <- Ee; change (concat (pc_env c)) with (env_entries c); rewrite env_list; apply env_after_fold|].
    cbv zeta. change (match pc_type c with Notify => _ | _ => _ end) with (program_env w c u).
    split; [eapply flatten_presents; eauto|]. rewrite <- Ea. split; [apply render_args_length|].
    intros i x Hx. assert (L : (i < length (render_args w (program_env w c u) 0 (pc_args c)))%nat).
    { rewrite render_args_length. apply nth_error_Some. congruence. }
    apply nth_error_Some in L. destruct (nth_error (render_args _ _ _ _) i) as [v|] eqn:E; [|congruence].
    exists v. split; [reflexivity|]. apply render_args_nth in E. destruct E as (x' & Hx' & Hr). cbn in Hr. congruence.
Qed.
Lemma runs_all_entries k lib syntax e configs s ls id q h fault t0 st x mask ign dir cr ch : SpecYaml.any_order lib -> m_yaml k = read_yaml lib syntax -> ordinary k syntax ->
  SpecEnv.any_order (m_world k) -> consistent (m_world k) -> reachable k e configs s ->
  g_procs (s_g s) !! id = Some q -> entries_of k syntax (p_name q) ls ->
  inherited t0 -> fd_reachable t0 st -> launch h fault q st x mask ign dir cr (Runs ch) ->
  runs_together lib (m_world k) ls ch /\
  (c_euid (ch_cred ch) <> 0 -> forall z, let some := exists l, In l ls /\ listed l z in (z ∈ c_eff (ch_cred ch) <-> some) /\ (z ∈ c_prm (ch_cred ch) <-> some)).
Proof.
  intros AO MY ORD AW CW R Hq EO I0 F0 L.
  destruct (settings_kept _ _ _ _ _ _ R Hq) as (c & q0 & Hc & P & SS).
  destruct (reachable_settings _ _ _ _ R) as (_ & parsed & RA & M).
  assert (PP := P). apply process_from_ok in PP. destruct PP as (u & g & path & _ & _ & Pp & _ & _ & _ & _ & _ & Nm & _ & _ & Pc & _).
  assert (T : together lib ls c).
  { eapply loaded_together; eauto; [eapply nth_error_In; eauto|congruence|]. destruct SS as (N & _). rewrite <- Nm, N. exact EO. }
  destruct (launch_runs _ _ _ _ _ _ _ _ _ _ _ I0 F0 L ch eq_refl) as (D & _). split; [eapply dressed_together; eauto|].
  intros U z. assert (U' : p_uid q <> 0) by (destruct D as (_ & D & _); congruence).
  destruct (caps_nonroot _ _ _ _ _ _ _ _ _ _ _ I0 F0 L ch eq_refl U') as (A & B & _). cbv zeta.
  assert (X : configured q z <-> exists l, In l ls /\ listed l z).
  { unfold configured. destruct SS as (_ & _ & _ & _ & _ & _ & _ & Sc & _). rewrite <- Sc, Pc. split.
    - intros (name & I & Lc). apply (to_caps _ _ _ T) in I. destruct I as (l & Il & ys & y & Ey & Iy & Ty). exists l. split; [exact Il|]. exists ys, y, name. auto.
    - intros (l & Il & ys & y & name & Ey & Iy & Ty & Lc). exists name. split; [|exact Lc]. apply (to_caps _ _ _ T). exists l. split; [exact Il|]. exists ys, y. auto. }
  rewrite (A z), (B z). tauto.
Qed.
