(** Proofs about the dependency graph. *)
From stdpp Require Import gmap strings.
From Coq Require Import ZArith List Bool Relations Lia.
From Verif Require Import Base ConfigModel DepModel SpecConfig SpecDep ConfigProofs.
Import ListNotations.
Local Open Scope string_scope.
Local Open Scope list_scope.
Local Open Scope nat_scope.

Notation occ := (count_occ Nat.eq_dec).

(** * Views of the node map *)
Definition afters (nodes : gmap nat dep_node) (u : nat) : list nat :=
  match nodes !! u with Some n => n_after n | None => [] end.
Definition fins (nodes : gmap nat dep_node) (u : nat) : bool :=
  match nodes !! u with Some n => n_finished n | None => false end.
Definition counts (nodes : gmap nat dep_node) (v : nat) : nat :=
  match nodes !! v with Some n => n_count n | None => 0 end.
(** Open edges into [v] from the nodes below [N]. *)
Definition open_from (nodes : gmap nat dep_node) (v u : nat) : nat :=
  if fins nodes u then 0 else occ (afters nodes u) v.
Definition pending (N : nat) (nodes : gmap nat dep_node) (v : nat) : nat :=
  list_sum (map (open_from nodes v) (seq 0 N)).
Definition full (N : nat) (nodes : gmap nat dep_node) : Prop := forall u, is_Some (nodes !! u) <-> u < N.

Lemma sum_cons a l : list_sum (a :: l) = a + list_sum l.
Proof. reflexivity. Qed.

Lemma sum_point (f g : nat -> nat) (i : nat) (d : nat) : forall l, List.NoDup l -> In i l ->
  (forall u, u <> i -> g u = f u) -> g i = f i + d ->
  list_sum (map g l) = list_sum (map f l) + d.
Proof.
  induction l as [|a l IH]; intros Hn Hin Hne Hi; [destruct Hin|].
  inversion Hn as [|? ? Ha Hl]; subst. cbn [map]. rewrite !sum_cons.
  destruct (Nat.eq_dec a i) as [->|E].
  - rewrite Hi. assert (K : map g l = map f l).
    { apply map_ext_in. intros u Hu. apply Hne. intros ->. auto. }
    rewrite K. lia.
  - destruct Hin as [->|Hin]; [congruence|]. rewrite (Hne a E), (IH Hl Hin Hne Hi). lia.
Qed.

Lemma pending_point N nodes nodes' v i d : i < N ->
  (forall u, u <> i -> open_from nodes' v u = open_from nodes v u) ->
  open_from nodes' v i = open_from nodes v i + d ->
  pending N nodes' v = pending N nodes v + d.
Proof.
  intros Hi Hne He. unfold pending. eapply sum_point; eauto; [apply seq_NoDup|]. apply in_seq. lia.
Qed.
Lemma pending_same N nodes nodes' v : (forall u, open_from nodes' v u = open_from nodes v u) ->
  pending N nodes' v = pending N nodes v.
Proof. intros H. unfold pending. f_equal. apply map_ext. auto. Qed.

Lemma pending_zero N nodes v : pending N nodes v = 0 <->
  forall u, u < N -> In v (afters nodes u) -> fins nodes u = true.
Proof.
  unfold pending. split.
  - intros H u Hu Hin.
    assert (K : open_from nodes v u = 0).
    { assert (Hl : In u (seq 0 N)) by (apply in_seq; lia). revert H Hl.
      generalize (seq 0 N). induction l as [|a l IH]; [intros _ []|]. cbn [map]. rewrite sum_cons. intros E [->|Hl]; [lia|]. apply IH; auto. lia. }
    unfold open_from in K. destruct (fins nodes u); [reflexivity|].
    apply (count_occ_In Nat.eq_dec) in Hin. lia.
  - intros H. assert (K : forall l, (forall u, In u l -> u < N) -> list_sum (map (open_from nodes v) l) = 0).
    { induction l as [|a l IH]; [reflexivity|]. intros Hl. cbn [map]. rewrite sum_cons, IH by (intros u Hu; apply Hl; right; auto).
      unfold open_from. specialize (H a (Hl a (or_introl eq_refl))).
      destruct (fins nodes a); [reflexivity|].
      destruct (in_dec Nat.eq_dec v (afters nodes a)) as [Hin|Hin]; [apply H in Hin; discriminate|].
      rewrite (proj1 (count_occ_not_In Nat.eq_dec _ _) Hin). reflexivity. }
    apply K. intros u Hu. apply in_seq in Hu. lia.
Qed.

Lemma full_insert N nodes i x : full N nodes -> i < N -> full N (<[i := x]> nodes).
Proof.
  intros F Hi u. rewrite lookup_insert_is_Some'. specialize (F u). split.
  - intros [<-|H]; [auto|apply F; auto].
  - intros H. right. apply F. auto.
Qed.

(** * The dictionary of names *)
Definition dict_for (programs : list proc_config) (d : gmap string nat) : Prop :=
  forall n i, d !! n = Some i <-> exists c, nth_error programs i = Some c /\ pc_name c = n.

Lemma enumerate_nth {A} (l : list A) i x : nth_error (enumerate l) i = Some x <->
  exists a, nth_error l i = Some a /\ x = (i, a).
Proof.
  unfold enumerate.
  assert (G : forall (l : list A) s i x, nth_error (combine (seq s (length l)) l) i = Some x <->
    exists a, nth_error l i = Some a /\ x = (s + i, a)).
  { clear. induction l as [|a l IH]; intros s i x; cbn.
    - destruct i; cbn; (split; [discriminate|intros (b & H & _); discriminate]).
    - destruct i as [|i]; cbn.
      + rewrite Nat.add_0_r. split; [intros H; inversion H; eauto|]. intros (b & H & ->). congruence.
      + rewrite IH. replace (S s + i) with (s + S i) by lia. reflexivity. }
  apply G.
Qed.
Lemma enumerate_in {A} (l : list A) i a : In (i, a) (enumerate l) <-> nth_error l i = Some a.
Proof.
  split.
  - intros H. apply In_nth_error in H. destruct H as [k H]. apply enumerate_nth in H.
    destruct H as (b & Hb & E). inversion E; subst. auto.
  - intros H. apply (nth_error_In _ i). apply enumerate_nth. eauto.
Qed.

Lemma build_name_dict_spec : forall descs d,
  List.NoDup (map (fun e => pc_name (snd e)) descs) ->
  (forall e, In e descs -> d !! pc_name (snd e) = None) ->
  exists d', build_name_dict descs d = Ret d' /\
    forall n i, d' !! n = Some i <-> d !! n = Some i \/ exists c, In (i, c) descs /\ pc_name c = n.
Proof.
  induction descs as [|[i c] rest IH]; intros d Hn Hd; cbn.
  - exists d. split; [reflexivity|]. intros n i. split; [auto|]. intros [H|(c & [] & _)]; auto.
  - inversion Hn as [|? ? H1 H2]; subst. cbn in H1.
    assert (Hic : d !! pc_name c = None) by (apply (Hd (i, c)); left; reflexivity). rewrite Hic.
    destruct (IH (<[pc_name c := i]> d)) as (d' & E & S); [auto| |].
    + intros e He. rewrite lookup_insert_ne; [apply Hd; right; auto|].
      intros K. apply H1. rewrite K. apply (in_map (fun e => pc_name (snd e))) in He. auto.
    + exists d'. split; [auto|]. intros n j. rewrite S. split.
      * intros [K|(c' & Hin & Hc')]; [|right; exists c'; split; [right|]; auto].
        destruct (decide (n = pc_name c)) as [->|Hne].
        -- rewrite lookup_insert in K. inversion K; subst. right. exists c. split; [left|]; auto.
        -- rewrite lookup_insert_ne in K by auto. auto.
      * intros [K|(c' & [Hin|Hin] & Hc')].
        -- left. rewrite lookup_insert_ne; [auto|]. intros <-.
           congruence.
        -- inversion Hin; subst. left. apply lookup_insert.
        -- right. eauto.
Qed.

Lemma map_snd_enumerate {A} (l : list A) : map snd (enumerate l) = l.
Proof.
  unfold enumerate. generalize 0. induction l as [|a l IH]; intros s; cbn; [reflexivity|]. f_equal. apply IH.
Qed.

Lemma name_dict programs : unique_names programs ->
  exists d, build_name_dict (enumerate programs) ∅ = Ret d /\ dict_for programs d.
Proof.
  intros Hu. destruct (build_name_dict_spec (enumerate programs) ∅) as (d & E & S).
  - rewrite <- (map_map snd pc_name), map_snd_enumerate. exact Hu.
  - intros e _. apply lookup_empty.
  - exists d. split; [auto|]. intros n i. rewrite S, lookup_empty. split.
    + intros [K|(c & Hin & Hc)]; [discriminate|]. apply enumerate_in in Hin. eauto.
    + intros (c & Hc & Hn). right. exists c. split; [apply enumerate_in; auto|auto].
Qed.

Lemma dict_none programs d n : dict_for programs d -> d !! n = None <-> ~ known programs n.
Proof.
  intros D. split.
  - intros H K. apply in_map_iff in K. destruct K as (c & Hc & Hin). apply In_nth_error in Hin.
    destruct Hin as [i Hi]. assert (d !! n = Some i) by (apply D; eauto). congruence.
  - intros H. destruct (d !! n) as [i|] eqn:E; [|reflexivity]. exfalso. apply H.
    apply D in E. destruct E as (c & Hc & <-). apply in_map. eapply nth_error_In; eauto.
Qed.
Lemma dict_some programs d n : dict_for programs d -> known programs n -> exists i, d !! n = Some i /\ i < length programs.
Proof.
  intros D K. destruct (d !! n) as [i|] eqn:E.
  - exists i. split; [reflexivity|]. apply D in E. destruct E as (c & Hc & _). apply nth_error_Some. congruence.
  - exfalso. apply (dict_none _ _ _ D) in E. auto.
Qed.

(** * Validation *)
Section Validation.
  Context (programs : list proc_config) (d : gmap string nat) (D : dict_for programs d).
  Context (U : unique_names programs).

  Lemma named_unique c c' : In c programs -> In c' programs -> pc_name c = pc_name c' -> c = c'.
  Proof.
    intros H H' E. apply In_nth_error in H, H'. destruct H as [i Hi]. destruct H' as [j Hj].
    assert (K : i = j).
    { assert (K1 : d !! pc_name c = Some i) by (apply D; eauto).
      assert (K2 : d !! pc_name c = Some j) by (apply D; eauto). congruence. }
    subst. congruence.
  Qed.

  Lemma validate_after_spec i c : nth_error programs i = Some c -> forall names k,
    (forall p x, nth_error names p = Some x -> nth_error (pc_after c) (k + p) = Some x) ->
    (validate_after (enumerate programs) d i k names = Ret (Ok tt) /\
       (forall n, In n names -> known programs n /\ ~ cronjob_named programs n)) \/
    (exists e, validate_after (enumerate programs) d i k names = Ret (Err e) /\ offender programs e /\
       ((exists j p, e = UnknownAfterReference j p) \/ exists j, e = CronjobDependencyOf j) /\
       exists n, In n names /\ (~ known programs n \/ cronjob_named programs n)).
  Proof.
    intros Hc. induction names as [|n rest IH]; intros k Hpos; cbn.
    - left. split; [reflexivity|]. intros n [].
    - assert (Hn : nth_error (pc_after c) k = Some n) by (rewrite <- (Nat.add_0_r k); apply Hpos; reflexivity).
      destruct (d !! n) as [j|] eqn:E.
      + apply D in E as E'. destruct E' as (cj & Hj & Hnj).
        assert (Ej : nth_error (enumerate programs) j = Some (j, cj)) by (apply enumerate_nth; eauto).
        rewrite Ej.
        assert (Kn : known programs n) by (rewrite <- Hnj; apply in_map; eapply nth_error_In; eauto).
        destruct (is_cronjob (pc_type cj)) eqn:T.
        * right. assert (CN : cronjob_named programs n).
          { exists cj. split; [eapply nth_error_In; eauto|auto]. }
          eexists. split; [reflexivity|]. split; [exists c, n; split; [auto|]; split; [eapply nth_error_In; eauto|auto]|].
          split; [eauto|]. exists n. split; [left; reflexivity|auto].
        * assert (CN : ~ cronjob_named programs n).
          { intros (c' & Hin' & Hn' & T'). assert (c' = cj); [|congruence].
            apply named_unique; auto; [eapply nth_error_In; eauto|congruence]. }
          destruct (IH (S k)) as [[E1 H1]|(e & E1 & O & F & m & Hm & Hm')].
          -- intros p x Hx. replace (S k + p) with (k + S p) by lia. apply Hpos. auto.
          -- left. split; [auto|]. intros m [<-|Hm]; auto.
          -- right. exists e. split; [auto|]. split; [auto|]. split; [auto|]. exists m. split; [right|]; auto.
      + apply (dict_none _ _ _ D) in E. right. eexists. split; [reflexivity|].
        split; [exists c, n; auto|]. split; [eauto|]. exists n. split; [left; reflexivity|auto].
  Qed.

  Lemma validate_before_spec i c : nth_error programs i = Some c -> forall names k,
    (forall p x, nth_error names p = Some x -> nth_error (pc_before c) (k + p) = Some x) ->
    (validate_before d i k names = Ok tt /\ (forall n, In n names -> known programs n)) \/
    (exists e, validate_before d i k names = Err e /\ offender programs e /\
       (exists j p, e = UnknownBeforeReference j p) /\
       exists n, In n names /\ ~ known programs n).
  Proof.
    intros Hc. induction names as [|n rest IH]; intros k Hpos; cbn.
    - left. split; [reflexivity|]. intros n [].
    - assert (Hn : nth_error (pc_before c) k = Some n) by (rewrite <- (Nat.add_0_r k); apply Hpos; reflexivity).
      destruct (d !! n) as [j|] eqn:E.
      + apply D in E as E'. destruct E' as (cj & Hj & Hnj).
        assert (Kn : known programs n) by (rewrite <- Hnj; apply in_map; eapply nth_error_In; eauto).
        destruct (IH (S k)) as [[E1 H1]|(e & E1 & O & F & m & Hm & Hm')].
        * intros p x Hx. replace (S k + p) with (k + S p) by lia. apply Hpos. auto.
        * left. split; [auto|]. intros m [<-|Hm]; auto.
        * right. exists e. split; [auto|]. split; [auto|]. split; [auto|]. exists m. split; [right|]; auto.
      + apply (dict_none _ _ _ D) in E. right. eexists. split; [reflexivity|].
        split; [exists c, n; auto|]. split; [eauto|]. exists n. split; [left; reflexivity|auto].
  Qed.

  Lemma validate_references_spec : forall todo, (forall i c, In (i, c) todo -> nth_error programs i = Some c) ->
    (validate_references (enumerate programs) d todo = Ret (Ok tt) /\
       forall i c, In (i, c) todo -> (forall n, In n (pc_before c) \/ In n (pc_after c) -> known programs n) /\
         (forall n, In n (pc_after c) -> ~ cronjob_named programs n)) \/
    (exists e, validate_references (enumerate programs) d todo = Ret (Err e) /\ offender programs e /\
       (forall v, e <> Cycle v) /\
       exists i c n, In (i, c) todo /\
         ((In n (pc_before c) \/ In n (pc_after c)) /\ ~ known programs n \/ In n (pc_after c) /\ cronjob_named programs n)).
  Proof.
    induction todo as [|[i c] rest IH]; intros Ht; cbn.
    - left. split; [reflexivity|]. intros i c [].
    - assert (Hc : nth_error programs i = Some c) by (apply Ht; left; reflexivity).
      destruct (validate_after_spec i c Hc (pc_after c) 0) as [[-> HA]|(e & -> & O & F & n & Hn & Hb)]; [auto| |].
      + destruct (validate_before_spec i c Hc (pc_before c) 0) as [[-> HB]|(e & -> & O & F & n & Hn & Hb)]; [auto| |].
        * destruct (IH ltac:(intros j c' Hj; apply Ht; right; auto)) as [[-> H]|(e & -> & O & F & j & c' & n & Hin & Hb)].
          -- left. split; [reflexivity|]. intros j c' [E|Hin].
             ++ inversion E; subst. split; [intros n [Hn|Hn]; [apply HB|apply HA]; auto|intros n Hn; apply HA; auto].
             ++ eauto.
          -- right. exists e. split; [reflexivity|]. split; [auto|]. split; [auto|]. exists j, c', n. split; [right; auto|auto].
        * right. exists e. split; [reflexivity|]. split; [auto|].
          split; [destruct F as (j & p & ->); discriminate|].
          exists i, c, n. split; [left; reflexivity|]. left. auto.
      + right. exists e. split; [reflexivity|]. split; [auto|].
        split; [destruct F as [(j & p & ->)|(j & ->)]; discriminate|].
        exists i, c, n. split; [left; reflexivity|]. destruct Hb; auto.
  Qed.
End Validation.

(** * Building the edges *)

(** How an operation changes the views. *)
Record effect (N : nat) (nodes nodes' : gmap nat dep_node) (dp dc : nat -> nat) (ne : nat -> nat -> Prop) : Prop := {
  ef_full : full N nodes';
  ef_fresh : forall u, fins nodes' u = false;
  ef_pending : forall v, pending N nodes' v = pending N nodes v + dp v;
  ef_counts : forall v, counts nodes' v = counts nodes v + dc v;
  ef_edges : forall u v, In v (afters nodes' u) <-> In v (afters nodes u) \/ ne u v
}.

Lemma effect_trans N n1 n2 n3 dp1 dp2 dc1 dc2 ne1 ne2 :
  effect N n1 n2 dp1 dc1 ne1 -> effect N n2 n3 dp2 dc2 ne2 ->
  effect N n1 n3 (fun v => dp1 v + dp2 v) (fun v => dc1 v + dc2 v) (fun u v => ne1 u v \/ ne2 u v).
Proof.
  intros [A1 A2 A3 A4 A5] [B1 B2 B3 B4 B5]. split; auto.
  - intros v. rewrite B3, A3. lia.
  - intros v. rewrite B4, A4. lia.
  - intros u v. rewrite B5, A5. tauto.
Qed.
Lemma effect_ext N n1 n2 dp dc ne dp' dc' ne' : effect N n1 n2 dp dc ne ->
  (forall v, dp v = dp' v) -> (forall v, dc v = dc' v) -> (forall u v, ne u v <-> ne' u v) ->
  effect N n1 n2 dp' dc' ne'.
Proof.
  intros [A1 A2 A3 A4 A5] H1 H2 H3. split; auto.
  - intros v. rewrite A3, H1. reflexivity.
  - intros v. rewrite A4, H2. reflexivity.
  - intros u v. rewrite A5, H3. reflexivity.
Qed.
Lemma effect_refl N nodes : full N nodes -> (forall u, fins nodes u = false) ->
  effect N nodes nodes (fun _ => 0) (fun _ => 0) (fun _ _ => False).
Proof. intros F H. split; auto. intros u v. tauto. Qed.

Definition one (i : nat) (k : nat) (v : nat) : nat := if Nat.eq_dec v i then k else 0.

Lemma push_effect N nodes i j : full N nodes -> (forall u, fins nodes u = false) -> i < N ->
  exists nodes', update_node i (push_after j) nodes = Ret nodes' /\
    effect N nodes nodes' (one j 1) (fun _ => 0) (fun u v => u = i /\ v = j).
Proof.
  intros F H Hi. unfold update_node. assert (Hs := proj2 (F i) Hi). destruct Hs as [n Hn]. rewrite Hn.
  eexists. split; [reflexivity|].
  assert (Hfin : n_finished n = false) by (specialize (H i); unfold fins in H; rewrite Hn in H; auto).
  assert (FI : forall u, fins (<[i := push_after j n]> nodes) u = false).
  { intros u. unfold fins. destruct (decide (u = i)) as [->|E]; [rewrite lookup_insert; auto|].
    rewrite lookup_insert_ne by auto. apply H. }
  split.
  - apply full_insert; auto.
  - exact FI.
  - intros v. apply (pending_point N nodes _ v i); [auto| |].
    + intros u Hu. unfold open_from, afters, fins. rewrite !lookup_insert_ne by auto. reflexivity.
    + unfold open_from. rewrite FI, H. unfold afters. rewrite lookup_insert, Hn. cbn.
      rewrite count_occ_app. cbn. unfold one. destruct (Nat.eq_dec v j), (Nat.eq_dec j v); congruence.
  - intros v. unfold counts. destruct (decide (v = i)) as [->|E]; [rewrite lookup_insert, Hn; cbn; lia|].
    rewrite lookup_insert_ne by auto. lia.
  - intros u v. unfold afters. destruct (decide (u = i)) as [->|E].
    + rewrite lookup_insert, Hn. cbn. rewrite in_app_iff. cbn. intuition.
    + rewrite lookup_insert_ne by auto. intuition.
Qed.

Lemma count_effect N nodes i k : full N nodes -> (forall u, fins nodes u = false) -> i < N ->
  exists nodes', update_node i (add_count k) nodes = Ret nodes' /\
    effect N nodes nodes' (fun _ => 0) (one i k) (fun _ _ => False).
Proof.
  intros F H Hi. unfold update_node. assert (Hs := proj2 (F i) Hi). destruct Hs as [n Hn]. rewrite Hn.
  eexists. split; [reflexivity|].
  assert (FI : forall u, fins (<[i := add_count k n]> nodes) u = fins nodes u).
  { intros u. unfold fins. destruct (decide (u = i)) as [->|E]; [rewrite lookup_insert, Hn; auto|].
    rewrite lookup_insert_ne by auto. reflexivity. }
  assert (AI : forall u, afters (<[i := add_count k n]> nodes) u = afters nodes u).
  { intros u. unfold afters. destruct (decide (u = i)) as [->|E]; [rewrite lookup_insert, Hn; auto|].
    rewrite lookup_insert_ne by auto. reflexivity. }
  split.
  - apply full_insert; auto.
  - intros u. rewrite FI. auto.
  - intros v. rewrite Nat.add_0_r. apply pending_same. intros u. unfold open_from. rewrite FI, AI. reflexivity.
  - intros v. unfold counts, one. destruct (decide (v = i)) as [->|E].
    + rewrite lookup_insert, Hn. cbn. destruct (Nat.eq_dec i i); [lia|congruence].
    + rewrite lookup_insert_ne by auto. destruct (Nat.eq_dec v i); [congruence|lia].
  - intros u v. rewrite AI. tauto.
Qed.

Lemma occ_sum js v : list_sum (map (fun j => one j 1 v) js) = occ js v.
Proof.
  induction js as [|j r IH]; [reflexivity|]. cbn [map count_occ]. rewrite sum_cons, IH. unfold one.
  destruct (Nat.eq_dec v j), (Nat.eq_dec j v); try congruence; reflexivity.
Qed.

(** A loop whose body has an effect that depends on the looked-up index only. *)
Lemma for_names_effect N d f (dp dc : nat -> nat -> nat) (ne : nat -> nat -> nat -> Prop) :
  (forall j nodes, j < N -> full N nodes -> (forall u, fins nodes u = false) ->
     exists nodes', f j nodes = Ret nodes' /\ effect N nodes nodes' (dp j) (dc j) (ne j)) ->
  forall names js nodes, Forall2 (fun n j => d !! n = Some j /\ j < N) names js ->
  full N nodes -> (forall u, fins nodes u = false) ->
  exists nodes', for_names d names f nodes = Ret nodes' /\
    effect N nodes nodes' (fun v => list_sum (map (fun j => dp j v) js)) (fun v => list_sum (map (fun j => dc j v) js))
      (fun u v => exists j, In j js /\ ne j u v).
Proof.
  intros Hf. induction names as [|n rest IH]; intros js nodes HF F H; inversion HF; subst; cbn.
  - exists nodes. split; [reflexivity|]. eapply effect_ext; [apply effect_refl; auto|reflexivity|reflexivity|].
    intros u v. split; [intros []|intros (j & [] & _)].
  - destruct H2 as [Hd Hj]. rewrite Hd. destruct (Hf _ nodes Hj F H) as (n1 & E1 & X1). rewrite E1. cbn.
    destruct (IH _ n1 H4) as (n2 & E2 & X2); [apply X1|apply X1|]. exists n2. split; [auto|].
    eapply effect_ext; [eapply effect_trans; eauto|reflexivity|reflexivity|].
    intros u v. cbn. split.
    + intros [K|(j & Hin & K)]; [exists y; auto|exists j; auto].
    + intros (j & [<-|Hin] & K); [left; auto|right; eauto].
Qed.

Lemma names_found programs d names : dict_for programs d -> (forall n, In n names -> known programs n) ->
  exists js, Forall2 (fun n j => d !! n = Some j /\ j < length programs) names js.
Proof.
  intros D. induction names as [|n rest IH]; intros H; [exists []; constructor|].
  destruct (IH ltac:(intros m Hm; apply H; right; auto)) as [js Hjs].
  destruct (dict_some programs d n D) as (j & Hj & Hl); [apply H; left; reflexivity|].
  exists (j :: js). constructor; auto.
Qed.
Lemma found_in programs d names js j : dict_for programs d ->
  Forall2 (fun n j => d !! n = Some j /\ j < length programs) names js ->
  In j js <-> exists c, nth_error programs j = Some c /\ In (pc_name c) names.
Proof.
  intros D HF. induction HF as [|n k names js [Hk Hl] HF IH]; cbn.
  - split; [intros []|]. intros (c & _ & []).
  - rewrite IH. split.
    + intros [->|(c & Hc & Hin)]; [|eauto]. apply D in Hk. destruct Hk as (c & Hc & Hn). exists c. split; auto.
    + intros (c & Hc & [E|Hin]); [|right; eauto]. left.
      assert (K : d !! n = Some j) by (apply D; eauto). congruence.
Qed.

Lemma build_one_effect programs d i c nodes : dict_for programs d -> nth_error programs i = Some c ->
  (forall n, In n (pc_before c) \/ In n (pc_after c) -> known programs n) ->
  full (length programs) nodes -> (forall u, fins nodes u = false) ->
  exists nodes' de, build_one d i c nodes = Ret nodes' /\
    effect (length programs) nodes nodes' de de
      (fun u v => exists c', (u = i /\ nth_error programs v = Some c' /\ In (pc_name c') (pc_before c)) \/
                             (v = i /\ nth_error programs u = Some c' /\ In (pc_name c') (pc_after c))).
Proof.
  intros D Hc Hk F H. set (N := length programs) in *.
  assert (Hi : i < N) by (apply nth_error_Some; congruence).
  destruct (names_found programs d (pc_before c) D ltac:(auto)) as [bs Hb].
  destruct (names_found programs d (pc_after c) D ltac:(auto)) as [as_ Ha].
  unfold build_one.
  destruct (for_names_effect N d (fun j => update_node i (push_after j)) (fun j => one j 1) (fun _ _ => 0)
              (fun j u v => u = i /\ v = j)
              ltac:(intros; apply push_effect; auto) _ _ nodes Hb F H) as (n1 & -> & X1).
  cbn. destruct (count_effect N n1 i (length (pc_after c)) (ef_full _ _ _ _ _ _ X1) (ef_fresh _ _ _ _ _ _ X1) Hi) as (n2 & -> & X2).
  cbn. destruct (for_names_effect N d (fun j => update_node j (add_count 1)) (fun _ _ => 0) (fun j => one j 1) (fun _ _ _ => False)
              ltac:(intros; apply count_effect; auto) _ _ n2 Hb (ef_full _ _ _ _ _ _ X2) (ef_fresh _ _ _ _ _ _ X2)) as (n3 & -> & X3).
  cbn. destruct (for_names_effect N d (fun j => update_node j (push_after i)) (fun _ => one i 1) (fun _ _ => 0)
              (fun j u v => u = j /\ v = i)
              ltac:(intros; apply push_effect; auto) _ _ n3 Ha (ef_full _ _ _ _ _ _ X3) (ef_fresh _ _ _ _ _ _ X3)) as (n4 & -> & X4).
  exists n4. eexists (fun v => occ bs v + one i (length (pc_after c)) v). split; [reflexivity|].
  pose proof (effect_trans _ _ _ _ _ _ _ _ _ _ (effect_trans _ _ _ _ _ _ _ _ _ _ (effect_trans _ _ _ _ _ _ _ _ _ _ X1 X2) X3) X4) as X.
  assert (LA : length as_ = length (pc_after c)) by (symmetry; eapply Forall2_length; eauto).
  assert (Z0 : forall l : list nat, list_sum (map (fun _ : nat => 0) l) = 0) by (induction l; cbn; auto).
  assert (ZI : forall v (l : list nat), list_sum (map (fun _ : nat => one i 1 v) l) = one i (length l) v).
  { intros v. unfold one. destruct (Nat.eq_dec v i); induction l; cbn; auto. }
  eapply effect_ext; [exact X| | |].
  - intros v. cbn. rewrite occ_sum, ZI, LA, Z0. lia.
  - intros v. cbn. rewrite occ_sum, !Z0. lia.
  - intros u v. cbn. split.
    + intros [[[(j & Hin & -> & ->)|[]]|(j & _ & [])]|(j & Hin & -> & ->)].
      * apply (found_in programs d) with (1 := D) (2 := Hb) in Hin. destruct Hin as (c' & Hc' & Hin). exists c'. left. auto.
      * apply (found_in programs d) with (1 := D) (2 := Ha) in Hin. destruct Hin as (c' & Hc' & Hin). exists c'. right. auto.
    + intros (c' & [(-> & Hc' & Hin)|(-> & Hc' & Hin)]).
      * left. left. left. exists v. split; [|auto]. apply (found_in programs d) with (1 := D) (2 := Hb). eauto.
      * right. exists u. split; [|auto]. apply (found_in programs d) with (1 := D) (2 := Ha). eauto.
Qed.

Lemma build_all_effect programs d : dict_for programs d -> refs_known programs ->
  forall todo nodes, (forall i c, In (i, c) todo -> nth_error programs i = Some c) ->
  full (length programs) nodes -> (forall u, fins nodes u = false) ->
  exists nodes' de, build_all d todo nodes = Ret nodes' /\
    effect (length programs) nodes nodes' de de
      (fun u v => exists i c c', In (i, c) todo /\
         ((u = i /\ nth_error programs v = Some c' /\ In (pc_name c') (pc_before c)) \/
          (v = i /\ nth_error programs u = Some c' /\ In (pc_name c') (pc_after c)))).
Proof.
  intros D R. induction todo as [|[i c] rest IH]; intros nodes Ht F H; cbn.
  - exists nodes, (fun _ => 0). split; [reflexivity|]. eapply effect_ext; [apply effect_refl; auto|reflexivity|reflexivity|].
    intros u v. split; [intros []|intros (i & c & c' & [] & _)].
  - assert (Hc : nth_error programs i = Some c) by (apply Ht; left; reflexivity).
    destruct (build_one_effect programs d i c nodes D Hc) as (n1 & de1 & E1 & X1); auto.
    { intros n Hn. eapply R; [eapply nth_error_In; eauto|auto]. }
    rewrite E1. cbn.
    destruct (IH n1) as (n2 & de2 & E2 & X2); [intros; apply Ht; right; auto|apply X1|apply X1|].
    exists n2, (fun v => de1 v + de2 v). split; [auto|].
    eapply effect_ext; [eapply effect_trans; eauto|reflexivity|reflexivity|].
    intros u v. cbn. split.
    + intros [(c' & K)|(j & cj & c' & Hin & K)]; [exists i, c, c'; auto|exists j, cj, c'; auto].
    + intros (j & cj & c' & [E|Hin] & K); [inversion E; subst; left; eauto|right; eauto 10].
Qed.

(** * The invariant of a dependency manager *)
Record dep_inv (programs : list proc_config) (fin : nat -> Prop) (handed : list nat) (m : dep_manager) : Prop := {
  di_full : full (length programs) (dm_nodes m);
  di_fin : forall u, fins (dm_nodes m) u = true <-> fin u;
  di_edges : forall u v, In v (afters (dm_nodes m) u) <-> depends programs u v;
  di_counts : forall v, v < length programs -> counts (dm_nodes m) v = pending (length programs) (dm_nodes m) v;
  di_archive : forall v, v ∈ dm_archive m <-> v < length programs /\ counts (dm_nodes m) v = 0;
  di_queue : forall v, In v (handed ++ dm_runnable m) <-> v ∈ dm_archive m;
  di_once : List.NoDup (handed ++ dm_runnable m)
}.

Lemma depends_bound programs u v : depends programs u v -> u < length programs /\ v < length programs.
Proof. intros (cu & cv & Hu & Hv & _). split; apply nth_error_Some; congruence. Qed.

(** What the queue contains. *)
Lemma dep_inv_released programs fin handed m v : dep_inv programs fin handed m ->
  In v (handed ++ dm_runnable m) <-> released programs fin v.
Proof.
  intros I. rewrite (di_queue _ _ _ _ I), (di_archive _ _ _ _ I). unfold released. split.
  - intros [Hv Hc]. split; [auto|]. intros u Hd. rewrite (di_counts _ _ _ _ I v Hv) in Hc.
    rewrite pending_zero in Hc. apply (di_fin _ _ _ _ I). apply Hc; [apply depends_bound in Hd; tauto|].
    apply (di_edges _ _ _ _ I). auto.
  - intros [Hv Hd]. split; [auto|]. rewrite (di_counts _ _ _ _ I v Hv). apply pending_zero.
    intros u Hu Hin. apply (di_fin _ _ _ _ I), Hd, (di_edges _ _ _ _ I). auto.
Qed.
Lemma dep_inv_runnable programs fin handed m v : dep_inv programs fin handed m ->
  is_runnable m v = true <-> released programs fin v.
Proof.
  intros I. unfold is_runnable. rewrite bool_decide_eq_true, <- (di_queue _ _ _ _ I). apply dep_inv_released. auto.
Qed.

Lemma dep_inv_ext programs fin fin' handed m : (forall u, fin u <-> fin' u) ->
  dep_inv programs fin handed m -> dep_inv programs fin' handed m.
Proof. intros H [A B C D E F G]. split; auto. intros u. rewrite B. auto. Qed.

(** Requests. *)
Lemma pop_dep_inv programs fin handed m i m' : dep_inv programs fin handed m -> pop_dep m = Some (i, m') ->
  dep_inv programs fin (i :: handed) m' /\ ~ In i handed /\ released programs fin i.
Proof.
  intros I H. assert (Hr : exists r, dm_runnable m = r ++ [i] /\ m' = {| dm_nodes := dm_nodes m; dm_runnable := r; dm_archive := dm_archive m |}).
  { unfold pop_dep in H. destruct (rev (dm_runnable m)) as [|x r] eqn:E; [discriminate|]. inversion H; subst.
    exists (rev r). split; [|reflexivity]. rewrite <- (rev_involutive (dm_runnable m)), E. reflexivity. }
  destruct Hr as (r & Er & ->).
  assert (P : Permutation (handed ++ dm_runnable m) ((i :: handed) ++ r)).
  { rewrite Er. cbn. rewrite app_assoc. symmetry. apply Permutation_cons_append. }
  destruct I as [A B C D E F G]. split; [split; cbn [dm_nodes dm_runnable dm_archive]; auto|].
  - intros v. rewrite <- F. split; apply Permutation_in; [symmetry; auto|auto].
  - eapply Permutation_NoDup; eauto.
  - assert (G' := Permutation_NoDup P G). cbn in G'. inversion G' as [|? ? K1 K2]; subst. split.
    + intros K. apply K1, in_or_app. auto.
    + apply (dep_inv_released programs fin handed m); [split; auto|]. rewrite Er. apply in_or_app. right. apply in_or_app. right. left. reflexivity.
Qed.
Lemma pop_dep_none m : pop_dep m = None <-> dm_runnable m = [].
Proof.
  unfold pop_dep. destruct (rev (dm_runnable m)) as [|x r] eqn:E.
  - split; [|reflexivity]. intros _. rewrite <- (rev_involutive (dm_runnable m)), E. reflexivity.
  - split; [discriminate|]. intros H. rewrite H in E. discriminate.
Qed.
Lemma pop_dep_some m i m' : pop_dep m = Some (i, m') -> In i (dm_runnable m) /\ dm_nodes m' = dm_nodes m /\
  dm_archive m' = dm_archive m /\ dm_runnable m = dm_runnable m' ++ [i].
Proof.
  unfold pop_dep. destruct (rev (dm_runnable m)) as [|x r] eqn:E; [discriminate|]. intros H. inversion H; subst. cbn.
  assert (K : dm_runnable m = rev r ++ [i]) by (rewrite <- (rev_involutive (dm_runnable m)), E; reflexivity).
  repeat split; auto. rewrite K. apply in_or_app. right. left. reflexivity.
Qed.

(** Completion reports: the loop over the successors still to be told. *)
Record rel_inv (programs : list proc_config) (fin : nat -> Prop) (handed rest : list nat) (m : dep_manager) : Prop := {
  ri_full : full (length programs) (dm_nodes m);
  ri_fin : forall u, fins (dm_nodes m) u = true <-> fin u;
  ri_edges : forall u v, In v (afters (dm_nodes m) u) <-> depends programs u v;
  ri_counts : forall v, v < length programs -> counts (dm_nodes m) v = pending (length programs) (dm_nodes m) v + occ rest v;
  ri_archive : forall v, v ∈ dm_archive m <-> v < length programs /\ counts (dm_nodes m) v = 0;
  ri_queue : forall v, In v (handed ++ dm_runnable m) <-> v ∈ dm_archive m;
  ri_once : List.NoDup (handed ++ dm_runnable m)
}.

Lemma release_inv programs fin handed : forall rest m, (forall j, In j rest -> j < length programs) ->
  rel_inv programs fin handed rest m ->
  exists m', release rest m = Ret m' /\ dep_inv programs fin handed m'.
Proof.
  induction rest as [|j rest IH]; intros m Hb I; cbn [release].
  - exists m. split; [reflexivity|]. destruct I as [A B C D E F G]. split; auto.
    intros v Hv. rewrite D by auto. cbn. lia.
  - assert (Hj : j < length programs) by (apply Hb; left; reflexivity).
    assert (Hs := proj2 (ri_full _ _ _ _ _ I j) Hj). destruct Hs as [n Hn]. rewrite Hn.
    assert (Hc : n_count n = pending (length programs) (dm_nodes m) j + S (occ rest j)).
    { pose proof (ri_counts _ _ _ _ _ I j Hj) as K. unfold counts in K. rewrite Hn in K. cbn in K.
      destruct (Nat.eq_dec j j); [lia|congruence]. }
    destruct (n_count n) as [|k] eqn:Ek; [lia|].
    set (nodes := <[j := {| n_after := n_after n; n_count := k; n_finished := n_finished n |}]> (dm_nodes m)).
    assert (FI : forall u, fins nodes u = fins (dm_nodes m) u).
    { intros u. unfold fins, nodes. destruct (decide (u = j)) as [->|E]; [rewrite lookup_insert, Hn; auto|].
      rewrite lookup_insert_ne by auto. reflexivity. }
    assert (AI : forall u, afters nodes u = afters (dm_nodes m) u).
    { intros u. unfold afters, nodes. destruct (decide (u = j)) as [->|E]; [rewrite lookup_insert, Hn; auto|].
      rewrite lookup_insert_ne by auto. reflexivity. }
    assert (PI : forall v, pending (length programs) nodes v = pending (length programs) (dm_nodes m) v).
    { intros v. apply pending_same. intros u. unfold open_from. rewrite FI, AI. reflexivity. }
    assert (CI : forall v, counts nodes v = if Nat.eq_dec v j then k else counts (dm_nodes m) v).
    { intros v. unfold counts, nodes. destruct (Nat.eq_dec v j) as [->|E]; [rewrite lookup_insert; reflexivity|].
      rewrite lookup_insert_ne by auto. reflexivity. }
    assert (FN : full (length programs) nodes).
    { apply full_insert; [apply I|auto]. }
    assert (CN : forall v, v < length programs -> counts nodes v = pending (length programs) nodes v + occ rest v).
    { intros v Hv. rewrite CI, PI. destruct (Nat.eq_dec v j) as [->|E]; [lia|].
      rewrite (ri_counts _ _ _ _ _ I v Hv). cbn. destruct (Nat.eq_dec j v); [congruence|reflexivity]. }
    assert (Hj0 : j ∉ dm_archive m).
    { intros K. apply (ri_archive _ _ _ _ _ I) in K. destruct K as [_ K]. unfold counts in K. rewrite Hn in K. lia. }
    destruct I as [A B C D E F G].
    destruct k as [|k'].
    + apply IH; [intros v Hv; apply Hb; right; auto|]. split; cbn [dm_nodes dm_runnable dm_archive]; auto.
      * intros u. rewrite FI. auto.
      * intros u v. rewrite AI. auto.
      * intros v. rewrite elem_of_union, elem_of_singleton, E, CI. destruct (Nat.eq_dec v j) as [->|Ne]; [tauto|]. intuition.
      * intros v. rewrite app_assoc, in_app_iff, F, elem_of_union, elem_of_singleton. cbn. intuition.
      * rewrite app_assoc. eapply Permutation_NoDup; [apply Permutation_cons_append|]. constructor; [|auto].
        rewrite F. auto.
    + apply IH; [intros v Hv; apply Hb; right; auto|]. split; cbn [dm_nodes dm_runnable dm_archive]; auto.
      * intros u. rewrite FI. auto.
      * intros u v. rewrite AI. auto.
      * intros v. rewrite E, CI. destruct (Nat.eq_dec v j) as [->|Ne]; [|reflexivity].
        unfold counts. rewrite Hn, Ek. split; intros [_ K]; lia.
Qed.

Lemma notify_inv programs fin handed m i : dep_inv programs fin handed m -> i < length programs ->
  exists m', notify_process_finished m i = Ret m' /\ dep_inv programs (fun u => fin u \/ u = i) handed m'.
Proof.
  intros I Hi. unfold notify_process_finished.
  assert (Hs := proj2 (di_full _ _ _ _ I i) Hi). destruct Hs as [n Hn]. rewrite Hn.
  destruct (n_finished n) eqn:Ef.
  - exists m. split; [reflexivity|]. apply dep_inv_ext with (2 := I). intros u. split; [auto|]. intros [H| ->]; [auto|].
    apply (di_fin _ _ _ _ I). unfold fins. rewrite Hn. auto.
  - apply release_inv.
    + intros j Hj. assert (K : In j (afters (dm_nodes m) i)) by (unfold afters; rewrite Hn; auto).
      apply (di_edges _ _ _ _ I) in K. apply depends_bound in K. tauto.
    + set (nodes := <[i := {| n_after := n_after n; n_count := n_count n; n_finished := true |}]> (dm_nodes m)).
      assert (FI : forall u, fins nodes u = if Nat.eq_dec u i then true else fins (dm_nodes m) u).
      { intros u. unfold fins, nodes. destruct (Nat.eq_dec u i) as [->|E]; [rewrite lookup_insert; auto|].
        rewrite lookup_insert_ne by auto. reflexivity. }
      assert (AI : forall u, afters nodes u = afters (dm_nodes m) u).
      { intros u. unfold afters, nodes. destruct (decide (u = i)) as [->|E]; [rewrite lookup_insert, Hn; auto|].
        rewrite lookup_insert_ne by auto. reflexivity. }
      assert (CI : forall v, counts nodes v = counts (dm_nodes m) v).
      { intros v. unfold counts, nodes. destruct (decide (v = i)) as [->|E]; [rewrite lookup_insert, Hn; reflexivity|].
        rewrite lookup_insert_ne by auto. reflexivity. }
      assert (PI : forall v, pending (length programs) (dm_nodes m) v = pending (length programs) nodes v + occ (n_after n) v).
      { intros v. apply (pending_point _ nodes _ v i); [auto| |].
        - intros u Hu. unfold open_from. rewrite FI, AI. destruct (Nat.eq_dec u i); [congruence|reflexivity].
        - unfold open_from. rewrite FI. destruct (Nat.eq_dec i i); [|congruence].
          unfold fins, afters. rewrite Hn, Ef. reflexivity. }
      destruct I as [A B C D E F G]. split; cbn [dm_nodes dm_runnable dm_archive]; auto.
      * apply full_insert; auto.
      * intros u. rewrite FI. destruct (Nat.eq_dec u i) as [->|Ne]; [tauto|]. rewrite B. tauto.
      * intros u v. rewrite AI. auto.
      * intros v Hv. rewrite CI, D by auto. apply PI.
      * intros v. rewrite E, CI. reflexivity.
Qed.

(** * Construction *)
Lemma fold_default_lookup {A} (l : list (nat * A)) : forall (m : gmap nat dep_node) u,
  fold_left (fun m e => <[fst e := default_node]> m) l m !! u =
  if in_dec Nat.eq_dec u (map fst l) then Some default_node else m !! u.
Proof.
  induction l as [|[i a] l IH]; intros m u; [reflexivity|]. cbn [fold_left]. rewrite IH. cbn [map fst].
  destruct (in_dec Nat.eq_dec u (map fst l)) as [H|H]; destruct (in_dec Nat.eq_dec u (i :: map fst l)) as [K|K]; auto.
  - exfalso. apply K. right. auto.
  - destruct K as [<-|K]; [|contradiction]. apply lookup_insert.
  - apply lookup_insert_ne. intros ->. apply K. left. reflexivity.
Qed.
Lemma map_fst_enumerate {A} (l : list A) : map fst (enumerate l) = seq 0 (length l).
Proof.
  unfold enumerate. generalize 0. induction l as [|a l IH]; intros s; cbn; [reflexivity|]. f_equal. apply IH.
Qed.

Lemma build_dependencies_spec programs d : dict_for programs d -> refs_known programs ->
  exists nodes, build_dependencies (enumerate programs) d = Ret nodes /\
    full (length programs) nodes /\ (forall u, fins nodes u = false) /\
    (forall v, counts nodes v = pending (length programs) nodes v) /\
    (forall u v, In v (afters nodes u) <-> depends programs u v).
Proof.
  intros D R. unfold build_dependencies. set (n0 := fold_left _ _ _).
  assert (L : forall u, n0 !! u = if in_dec Nat.eq_dec u (seq 0 (length programs)) then Some default_node else None).
  { intros u. unfold n0. rewrite fold_default_lookup, map_fst_enumerate, lookup_empty. reflexivity. }
  assert (F : full (length programs) n0).
  { intros u. rewrite L. destruct (in_dec Nat.eq_dec u (seq 0 (length programs))) as [H|H]; rewrite in_seq in H.
    - split; [lia|eauto].
    - split; [intros [? ?]; discriminate|lia]. }
  assert (H0 : forall u, fins n0 u = false).
  { intros u. unfold fins. rewrite L. destruct (in_dec _ _ _); reflexivity. }
  assert (A0 : forall u, afters n0 u = []).
  { intros u. unfold afters. rewrite L. destruct (in_dec _ _ _); reflexivity. }
  destruct (build_all_effect programs d D R (enumerate programs) n0) as (nodes & de & E & X); auto.
  { intros i c Hin. apply enumerate_in. auto. }
  exists nodes. split; [auto|]. split; [apply X|]. split; [apply X|]. split.
  - intros v. rewrite (ef_counts _ _ _ _ _ _ X), (ef_pending _ _ _ _ _ _ X). f_equal.
    assert (P0 : pending (length programs) n0 v = 0).
    { apply pending_zero. intros u _ Hin. rewrite A0 in Hin. destruct Hin. }
    rewrite P0. unfold counts. rewrite L. destruct (in_dec _ _ _); reflexivity.
  - intros u v. rewrite (ef_edges _ _ _ _ _ _ X), A0. split.
    + intros [[]|(i & c & c' & Hin & K)]. apply enumerate_in in Hin.
      destruct K as [(-> & Hc' & K)|(-> & Hc' & K)]; [exists c, c'|exists c', c]; auto.
    + intros (cu & cv & Hu & Hv & [K|K]); right.
      * exists u, cu, cv. split; [apply enumerate_in; auto|auto].
      * exists v, cv, cu. split; [apply enumerate_in; auto|auto].
Qed.

Lemma graph_edges_in nodes u v : In (u, v) (graph_edges nodes) <-> In v (afters nodes u).
Proof.
  unfold graph_edges. rewrite in_concat. split.
  - intros (l & Hl & Hin). apply in_map_iff in Hl. destruct Hl as ([i n] & <- & Hn).
    apply in_map_iff in Hin. destruct Hin as (j & E & Hj). inversion E; subst.
    apply elem_of_list_In, elem_of_map_to_list in Hn. unfold afters. rewrite Hn. auto.
  - unfold afters. destruct (nodes !! u) as [n|] eqn:E; [|intros []]. intros Hv.
    exists (map (fun j => (u, j)) (n_after n)). split.
    + apply in_map_iff. exists (u, n). split; [reflexivity|]. apply elem_of_list_In, elem_of_map_to_list. auto.
    + apply in_map_iff. eauto.
Qed.

Lemma clos_trans_ext (R R' : nat -> nat -> Prop) u v : (forall a b, R a b -> R' a b) ->
  clos_trans nat R u v -> clos_trans nat R' u v.
Proof.
  intros H K. induction K as [a b Hab|a b c _ IH1 _ IH2]; [apply t_step; auto|eapply t_trans; eauto].
Qed.

Theorem with_nodes_spec order toposort programs :
  unique_names programs -> any_perm order -> finds_cycles toposort ->
  (exists m, with_nodes order toposort (enumerate programs) = Ret (Ok m) /\
     refs_known programs /\ no_cron_after programs /\ acyclic programs /\
     dep_inv programs (fun _ => False) [] m) \/
  (exists e, with_nodes order toposort (enumerate programs) = Ret (Err e) /\ offender programs e /\
     ~ (refs_known programs /\ no_cron_after programs /\ acyclic programs)).
Proof.
  intros U Ho Ht. unfold with_nodes.
  destruct (name_dict programs U) as (d & -> & D). cbn.
  destruct (validate_references_spec programs d D (enumerate programs)) as [[-> HV]|(e & -> & O & _ & i & c & n & Hin & Hb)].
  { intros i c Hin. apply enumerate_in. auto. }
  - cbn. assert (R : refs_known programs).
    { intros c n Hc Hn. apply In_nth_error in Hc. destruct Hc as [i Hi]. apply enumerate_in in Hi. eapply HV; eauto. }
    assert (NC : no_cron_after programs).
    { intros c n Hc Hn. apply In_nth_error in Hc. destruct Hc as [i Hi]. apply enumerate_in in Hi. eapply HV; eauto. }
    destruct (build_dependencies_spec programs d D R) as (nodes & -> & F & Fi & Co & Ed). cbn.
    unfold check_for_cycles.
    specialize (Ht (map fst (map_to_list nodes)) (graph_edges nodes)).
    assert (Hdom : forall u v, In (u, v) (graph_edges nodes) ->
      In u (map fst (map_to_list nodes)) /\ In v (map fst (map_to_list nodes))).
    { intros u v Huv. rewrite graph_edges_in in Huv. apply Ed, depends_bound in Huv.
      assert (K : forall w, w < length programs -> In w (map fst (map_to_list nodes))).
      { intros w Hw. apply F in Hw. destruct Hw as [x Hx]. apply in_map_iff. exists (w, x). split; [reflexivity|].
        apply elem_of_list_In, elem_of_map_to_list. auto. }
      split; apply K; tauto. }
    specialize (Ht Hdom). cbn in Ht.
    assert (EE : forall u v, In (u, v) (graph_edges nodes) <-> depends programs u v).
    { intros u v. rewrite graph_edges_in. apply Ed. }
    destruct (toposort _ _) as [v|].
    + right. exists (Cycle v). split; [reflexivity|].
      assert (K : clos_trans nat (depends programs) v v) by (eapply clos_trans_ext; [|exact Ht]; intros a b; apply EE).
      split; [exact K|]. intros (_ & _ & A). apply (A v K).
    + left. eexists. split; [reflexivity|]. split; [auto|]. split; [auto|]. split.
      { intros v K. apply (Ht v). eapply clos_trans_ext; [|exact K]. intros a b; apply EE. }
      assert (Q : forall v, In v (find_initial_runnables order nodes) <-> v < length programs /\ counts nodes v = 0).
      { intros v. unfold find_initial_runnables. split.
        - intros K. apply (Permutation_in _ (Ho _)) in K. apply in_map_iff in K. destruct K as ([i n] & <- & K).
          apply filter_In in K. destruct K as [K1 K2]. cbn in *. apply elem_of_list_In, elem_of_map_to_list in K1.
          apply Nat.eqb_eq in K2. split; [apply F; eauto|]. unfold counts. rewrite K1. auto.
        - intros [Hv Hc]. apply (Permutation_in _ (Permutation_sym (Ho _))). apply F in Hv. destruct Hv as [n Hn].
          apply in_map_iff. exists (v, n). split; [reflexivity|]. apply filter_In. split.
          + apply elem_of_list_In, elem_of_map_to_list. auto.
          + cbn. apply Nat.eqb_eq. unfold counts in Hc. rewrite Hn in Hc. auto. }
      split; cbn [dm_nodes dm_runnable dm_archive app]; auto.
      * intros u. rewrite Fi. intuition discriminate.
      * intros v. rewrite elem_of_list_to_set, elem_of_list_In. apply Q.
      * intros v. rewrite elem_of_list_to_set, elem_of_list_In. reflexivity.
      * unfold find_initial_runnables. eapply Permutation_NoDup; [symmetry; apply Ho|].
        assert (K : List.NoDup (map fst (map_to_list nodes))) by (apply NoDup_ListNoDup, NoDup_fst_map_to_list).
        revert K. generalize (map_to_list nodes). clear. induction l as [|[i n] l IH]; cbn; [auto|].
        intros K. inversion K as [|? ? K1 K2]; subst. destruct (n_count n =? 0); cbn; [|auto].
        constructor; [|auto]. intros Hin. apply K1. apply in_map_iff in Hin. destruct Hin as (e & <- & He).
        apply filter_In in He. apply in_map. apply He.
  - right. exists e. split; [reflexivity|]. split; [auto|]. intros (R & NC & _).
    apply enumerate_in in Hin. apply nth_error_In in Hin. destruct Hb as [[Hn Hk]|[Hn Hk]]; [apply Hk; eapply R; eauto|eapply NC; eauto].
Qed.

(** * C12 *)
Theorem validation_exact order toposort programs :
  unique_names programs -> any_perm order -> finds_cycles toposort ->
  (refs_known programs /\ no_cron_after programs /\ acyclic programs ->
     exists m, with_nodes order toposort (enumerate programs) = Ret (Ok m)) /\
  (~ (refs_known programs /\ no_cron_after programs /\ acyclic programs) ->
     exists e, with_nodes order toposort (enumerate programs) = Ret (Err e) /\ offender programs e).
Proof.
  intros U Ho Ht. destruct (with_nodes_spec order toposort programs U Ho Ht) as [(m & E & R & C & A & _)|(e & E & O & N)].
  - split; [eauto|]. intros N. exfalso. apply N. auto.
  - split; [|eauto]. intros K. contradiction.
Qed.

(** * A cycle finder meeting the contract *)
Definition pair_dec : forall a b : nat * nat, {a = b} + {a <> b}.
Proof. intros [a b] [c d]. destruct (Nat.eq_dec a c), (Nat.eq_dec b d); subst; auto; right; congruence. Defined.
Definition through (k : nat) (R : list (nat * nat)) : list (nat * nat) :=
  nodup pair_dec (R ++ concat (map (fun e => if Nat.eqb (snd e) k
    then map (fun f => (fst e, snd f)) (List.filter (fun f => Nat.eqb (fst f) k) R) else []) R)).
Definition closure (nodes : list nat) (edges : list (nat * nat)) : list (nat * nat) :=
  fold_left (fun R k => through k R) nodes edges.
Definition find_cycle (nodes : list nat) (edges : list (nat * nat)) : option nat :=
  let R := closure nodes edges in
  List.find (fun v => if in_dec pair_dec (v, v) R then true else false) nodes.

Lemma through_in k R u v : In (u, v) (through k R) <-> In (u, v) R \/ In (u, k) R /\ In (k, v) R.
Proof.
  unfold through. rewrite nodup_In, in_app_iff, in_concat. apply or_iff_compat_l. split.
  - intros (l & Hl & Hin). apply in_map_iff in Hl. destruct Hl as ([a b] & <- & Hab). cbn in Hin.
    destruct (b =? k) eqn:E; [|destruct Hin]. apply Nat.eqb_eq in E. subst b.
    apply in_map_iff in Hin. destruct Hin as ([x y] & E & Hxy). cbn in E. inversion E; subst.
    apply filter_In in Hxy. cbn in Hxy. destruct Hxy as [Hxy Hk]. apply Nat.eqb_eq in Hk. subst. auto.
  - intros [H1 H2]. eexists. split; [apply in_map_iff; exists (u, k); split; [reflexivity|auto]|].
    cbn. rewrite Nat.eqb_refl. apply in_map_iff. exists (k, v). split; [reflexivity|].
    apply filter_In. split; [auto|]. cbn. apply Nat.eqb_refl.
Qed.

Lemma closure_spec : forall nodes R (S : list nat),
  (forall j u v, In j S -> In (u, j) R -> In (j, v) R -> In (u, v) R) ->
  (forall e, In e R -> In e (closure nodes R)) /\
  (forall j u v, In j S \/ In j nodes -> In (u, j) (closure nodes R) -> In (j, v) (closure nodes R) -> In (u, v) (closure nodes R)) /\
  (forall u v, In (u, v) (closure nodes R) -> clos_trans nat (fun a b => In (a, b) R) u v).
Proof.
  induction nodes as [|k nodes IH]; intros R S H; cbn.
  - split; [auto|]. split; [intros j u v [Hj|[]]; eauto|]. intros u v Huv. apply t_step. auto.
  - destruct (IH (through k R) (k :: S)) as (A & B & C).
    + intros j u v [<-|Hj]; rewrite !through_in.
      * tauto.
      * intros [H1|[H1 H1']] [H2|[H2 H2']]; eauto 10.
    + split; [|split].
      * intros [u v] He. apply A. apply through_in. auto.
      * intros j u v Hj. apply B. cbn. tauto.
      * intros u v Huv. apply C in Huv. clear -Huv. induction Huv as [a b Hab|a b c _ IH1 _ IH2].
        -- apply through_in in Hab. destruct Hab as [Hab|[H1 H2]]; [apply t_step; auto|].
           eapply t_trans; apply t_step; eauto.
        -- eapply t_trans; eauto.
Qed.

Lemma find_cycle_ok : finds_cycles find_cycle.
Proof.
  intros nodes edges Hin E. unfold find_cycle.
  destruct (closure_spec nodes edges []) as (A & B & C); [intros j u v []|].
  destruct (List.find _ nodes) as [v|] eqn:F.
  - apply find_some in F. destruct F as [_ F]. destruct (in_dec pair_dec (v, v) (closure nodes edges)); [|discriminate].
    apply C. auto.
  - assert (K : forall u v, clos_trans nat E u v -> In (u, v) (closure nodes edges) /\ In u nodes /\ In v nodes).
    { intros u v H. induction H as [a b Hab|a b c _ [I1 [I2 I3]] _ [I4 [I5 I6]]].
      - split; [apply A; auto|]. apply Hin. auto.
      - split; [|auto]. apply (B b a c); auto. }
    intros v Hv. apply K in Hv. destruct Hv as (H1 & H2 & _). pose proof (find_none _ _ F v H2) as N. cbn in N.
    destruct (in_dec pair_dec (v, v) (closure nodes edges)); [discriminate|contradiction].
Qed.

(** * C25 *)
Lemma NoDup_app_left {A} (l l' : list A) : List.NoDup (l ++ l') -> List.NoDup l.
Proof.
  induction l as [|a l IH]; cbn; intros H; [constructor|]. inversion H; subst. constructor; [|auto].
  intros K. apply H2. apply in_or_app. auto.
Qed.
Lemma dep_run_inv programs : forall ops m handed fin, dep_inv programs fin handed m ->
  (forall i, In (Report i) ops -> i < length programs) ->
  exists m' handed', dep_run ops m handed = Ret (m', handed') /\
    dep_inv programs (fun u => fin u \/ reported ops u) handed' m'.
Proof.
  induction ops as [|[i|] rest IH]; intros m handed fin I Hb; cbn [dep_run].
  - exists m, handed. split; [reflexivity|]. eapply dep_inv_ext; [|exact I]. intros u. unfold reported. cbn. tauto.
  - destruct (notify_inv _ _ _ _ i I) as (m1 & E & I1); [apply Hb; left; reflexivity|]. rewrite E. cbn.
    destruct (IH m1 handed _ I1) as (m2 & h2 & E2 & I2); [intros j Hj; apply Hb; right; auto|].
    exists m2, h2. split; [auto|]. eapply dep_inv_ext; [|exact I2]. intros u. unfold reported. cbn. split.
    + intros [[H| ->]|H]; auto.
    + intros [H|[H|H]]; [auto|inversion H; auto|auto].
  - destruct (pop_dep m) as [[i m1]|] eqn:E.
    + destruct (pop_dep_inv _ _ _ _ _ _ I E) as (I1 & _).
      destruct (IH m1 _ _ I1) as (m2 & h2 & E2 & I2); [intros j Hj; apply Hb; right; auto|].
      exists m2, h2. split; [auto|]. eapply dep_inv_ext; [|exact I2]. intros u. unfold reported. cbn. split.
      * intros [H|H]; auto.
      * intros [H|[H|H]]; [auto|inversion H|auto].
    + destruct (IH m _ _ I) as (m2 & h2 & E2 & I2); [intros j Hj; apply Hb; right; auto|].
      exists m2, h2. split; [auto|]. eapply dep_inv_ext; [|exact I2]. intros u. unfold reported. cbn. split.
      * intros [H|H]; auto.
      * intros [H|[H|H]]; [auto|inversion H|auto].
Qed.

Theorem bookkeeping order toposort programs m0 ops :
  unique_names programs -> any_perm order -> finds_cycles toposort ->
  with_nodes order toposort (enumerate programs) = Ret (Ok m0) ->
  (forall i, In (Report i) ops -> i < length programs) ->
  exists m handed, dep_run ops m0 [] = Ret (m, handed) /\
    List.NoDup handed /\
    (forall v, In v handed -> released programs (reported ops) v) /\
    match pop_dep m with
    | Some (v, _) => ~ In v handed /\ released programs (reported ops) v
    | None => forall v, released programs (reported ops) v -> In v handed
    end /\
    (forall v, is_runnable m v = true <-> released programs (reported ops) v).
Proof.
  intros U Ho Ht E Hb.
  destruct (with_nodes_spec order toposort programs U Ho Ht) as [(m & E' & _ & _ & _ & I)|(e & E' & _)]; [|congruence].
  rewrite E in E'. inversion E'; subst m. clear E'.
  destruct (dep_run_inv programs ops m0 [] _ I Hb) as (m & handed & E1 & I1).
  assert (I2 : dep_inv programs (reported ops) handed m).
  { eapply dep_inv_ext; [|exact I1]. intros u. cbn. tauto. }
  exists m, handed. split; [auto|]. split.
  { eapply NoDup_app_left. apply (di_once _ _ _ _ I2). }
  split.
  { intros v Hv. apply (dep_inv_released _ _ _ _ v I2). apply in_or_app. auto. }
  split; [|intros v; apply (dep_inv_runnable _ _ _ _ v I2)].
  destruct (pop_dep m) as [[v m']|] eqn:P.
  - destruct (pop_dep_inv _ _ _ _ _ _ I2 P) as (_ & H1 & H2). auto.
  - apply pop_dep_none in P. intros v Hv. apply (dep_inv_released _ _ _ _ v I2) in Hv. rewrite P, app_nil_r in Hv. auto.
Qed.

(** Reporting twice is the same as reporting once. *)
Theorem report_twice programs fin handed m i m' : dep_inv programs fin handed m ->
  notify_process_finished m i = Ret m' -> notify_process_finished m' i = Ret m'.
Proof.
  intros I E. destruct (Nat.ltb i (length programs)) eqn:L.
  - apply Nat.ltb_lt in L. destruct (notify_inv _ _ _ _ i I L) as (m1 & E1 & I1).
    assert (m1 = m') by congruence. subst m1. unfold notify_process_finished.
    assert (Hs := proj2 (di_full _ _ _ _ I1 i) L). destruct Hs as [n Hn]. rewrite Hn.
    assert (K : fins (dm_nodes m') i = true) by (apply (di_fin _ _ _ _ I1); auto).
    unfold fins in K. rewrite Hn in K. rewrite K. reflexivity.
  - apply Nat.ltb_ge in L. unfold notify_process_finished in E.
    destruct (dm_nodes m !! i) as [n|] eqn:Hn; [|discriminate].
    assert (K : i < length programs) by (apply (di_full _ _ _ _ I); eauto). lia.
Qed.

Theorem repeated_report order toposort programs m0 ops i :
  unique_names programs -> any_perm order -> finds_cycles toposort ->
  with_nodes order toposort (enumerate programs) = Ret (Ok m0) ->
  (forall j, In (Report j) ops -> j < length programs) -> In (Report i) ops ->
  dep_run (ops ++ [Report i]) m0 [] = dep_run ops m0 [].
Proof.
  intros U Ho Ht E Hb Hi.
  destruct (with_nodes_spec order toposort programs U Ho Ht) as [(m & E' & _ & _ & _ & I)|(e & E' & _)]; [|congruence].
  rewrite E in E'. inversion E'; subst m. clear E'.
  destruct (dep_run_inv programs ops m0 [] _ I Hb) as (m & handed & E1 & I1).
  assert (A : forall ops1 ops2 m h, dep_run (ops1 ++ ops2) m h =
    match dep_run ops1 m h with Ret (m', h') => dep_run ops2 m' h' | Panic e => Panic e end).
  { clear. induction ops1 as [|[j|] r IH]; intros ops2 m h; cbn; [reflexivity| |].
    - destruct (notify_process_finished m j); cbn; auto.
    - destruct (pop_dep m) as [[j m']|]; auto. }
  rewrite A, E1. cbn.
  assert (Hn : is_Some (dm_nodes m !! i)) by (apply (di_full _ _ _ _ I1), Hb, Hi).
  destruct Hn as [n Hn].
  assert (K : fins (dm_nodes m) i = true) by (apply (di_fin _ _ _ _ I1); right; exact Hi).
  unfold notify_process_finished. unfold fins in K. rewrite Hn in *. rewrite K. reflexivity.
Qed.

Theorem validation_decides order toposort programs :
  unique_names programs -> any_perm order -> finds_cycles toposort ->
  (exists m, with_nodes order toposort (enumerate programs) = Ret (Ok m) /\
     refs_known programs /\ no_cron_after programs /\ acyclic programs) \/
  (exists e, with_nodes order toposort (enumerate programs) = Ret (Err e) /\ offender programs e /\
     ~ (refs_known programs /\ no_cron_after programs /\ acyclic programs)).
Proof.
  intros U Ho Ht. destruct (with_nodes_spec order toposort programs U Ho Ht) as [(m & E & R & C & A & _)|K]; [left; eauto|auto].
Qed.

Theorem loaded_names_unique yaml drain root programs order toposort :
  some_order drain -> ~ non_utf8 root -> any_perm order -> finds_cycles toposort ->
  parse_config yaml drain root = Ret (Ok programs) ->
  unique_names programs /\ exists r, with_nodes order toposort (enumerate programs) = Ret r.
Proof.
  intros Hd Hu Ho Ht E. assert (U : unique_names programs).
  { unfold parse_config in E. destruct (read_config root) as [[raw|e]|m]; try discriminate.
    destruct (parse_raw_config yaml raw) as [fs|e]; [|discriminate]. apply (merge_dropins_spec drain fs programs Hd E). }
  split; [auto|]. destruct (validation_decides order toposort programs U Ho Ht) as [(m & K & _)|(e & K & _)]; eauto.
Qed.

Lemma dep_run_app ops1 : forall ops2 m h, dep_run (ops1 ++ ops2) m h =
  match dep_run ops1 m h with Ret (m', h') => dep_run ops2 m' h' | Panic e => Panic e end.
Proof.
  induction ops1 as [|[j|] r IH]; intros ops2 m h; cbn; [reflexivity| |].
  - destruct (notify_process_finished m j); cbn; auto.
  - destruct (pop_dep m) as [[j m']|]; auto.
Qed.

Lemma drain_run programs fin : forall k m handed, dep_inv programs fin handed m -> length (dm_runnable m) <= k ->
  exists m' handed', dep_run (repeat Request k) m handed = Ret (m', handed') /\ dep_inv programs fin handed' m' /\ dm_runnable m' = [].
Proof.
  induction k as [|k IH]; intros m handed I L; cbn.
  - exists m, handed. split; [reflexivity|]. split; [auto|]. destruct (dm_runnable m); [reflexivity|cbn in L; lia].
  - destruct (pop_dep m) as [[i m']|] eqn:P.
    + destruct (pop_dep_inv _ _ _ _ _ _ I P) as (I' & _). destruct (pop_dep_some _ _ _ P) as (_ & _ & _ & E).
      apply IH; [auto|]. rewrite E, app_length in L. cbn in L. lia.
    + apply pop_dep_none in P. apply IH; [auto|]. rewrite P. cbn. lia.
Qed.

Lemma queue_bound programs fin handed m : dep_inv programs fin handed m -> length (dm_runnable m) <= length programs.
Proof.
  intros I. assert (N : List.NoDup (dm_runnable m)).
  { pose proof (di_once _ _ _ _ I) as K. clear -K. induction handed as [|a l IH]; cbn in K; [auto|]. inversion K; auto. }
  rewrite <- (seq_length (length programs) 0). apply NoDup_incl_length; [auto|].
  intros v Hv. apply in_seq. assert (K : released programs fin v).
  { apply (dep_inv_released _ _ _ _ _ I). apply in_or_app. auto. }
  destruct K. lia.
Qed.

Theorem drained order toposort programs m0 ops :
  unique_names programs -> any_perm order -> finds_cycles toposort ->
  with_nodes order toposort (enumerate programs) = Ret (Ok m0) ->
  (forall i, In (Report i) ops -> i < length programs) ->
  exists m handed, dep_run (ops ++ repeat Request (length programs)) m0 [] = Ret (m, handed) /\
    has_runnables m = false /\ List.NoDup handed /\ forall v, In v handed <-> released programs (reported ops) v.
Proof.
  intros U Ho Ht E Hb.
  destruct (with_nodes_spec order toposort programs U Ho Ht) as [(m & E' & _ & _ & _ & I)|(e & E' & _)]; [|congruence].
  rewrite E in E'. inversion E'; subst m. clear E'.
  destruct (dep_run_inv programs ops m0 [] _ I Hb) as (m & handed & E1 & I1).
  destruct (drain_run programs _ (length programs) m handed I1 (queue_bound _ _ _ _ I1)) as (m2 & h2 & E2 & I2 & R).
  exists m2, h2. rewrite dep_run_app, E1, E2. split; [reflexivity|].
  split; [unfold has_runnables; rewrite R; reflexivity|].
  pose proof (di_once _ _ _ _ I2) as N. rewrite R, app_nil_r in N. split; [auto|].
  intros v. pose proof (dep_inv_released _ _ _ _ v I2) as K. rewrite R, app_nil_r in K. rewrite K.
  unfold released. split; intros [H1 H2]; (split; [auto|]); intros u Hu; apply H2 in Hu; [destruct Hu as [[]|Hu]; auto|auto].
Qed.
