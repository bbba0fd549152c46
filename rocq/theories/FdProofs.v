(** Proofs about the descriptors of cinit and of the programs. *)
From stdpp Require Import gmap strings.
From Coq Require Import ZArith List Bool Lia.
From Verif Require Import Base ProcessModel ChildModel FdModel SpecChild ChildProofs.
Import ListNotations.
Local Open Scope string_scope.
Local Open Scope list_scope.
Local Open Scope Z_scope.

(** cinit's table holds what it inherited, and descriptors of its own with the flag. *)
Definition own (d : desc) : Prop := d_cloexec d = true /\ match d_file d with FOwn _ | FReader _ _ => True | _ => False end.
Definition kept (t0 t : table) : Prop :=
  forall fd, match t0 !! fd with
             | Some d => t !! fd = Some d
             | None => forall d, t !! fd = Some d -> own d
             end.

Lemma open_inv t fd f b t' : open t fd f b = Some t' -> t !! fd = None /\ t' = <[fd := {| d_file := f; d_cloexec := b |}]> t.
Proof. unfold open. destruct (t !! fd); [discriminate|]. intros H. apply Some_inj in H. auto. Qed.
Lemma opt_bind_inv {A B} (x : option A) (f : A -> option B) b : opt_bind x f = Some b -> exists a, x = Some a /\ f a = Some b.
Proof. destruct x; [eauto|discriminate]. Qed.
Lemma kept_none t0 t fd : kept t0 t -> t !! fd = None -> t0 !! fd = None.
Proof. intros K H. specialize (K fd). destruct (t0 !! fd); [congruence|reflexivity]. Qed.
Lemma kept_open t0 t fd f t' : kept t0 t -> open t fd f true = Some t' -> match f with FOwn _ | FReader _ _ => True | _ => False end -> kept t0 t'.
Proof.
  intros K O F. apply open_inv in O. destruct O as [N ->]. assert (N0 := kept_none _ _ _ K N). intros z. specialize (K z).
  destruct (Z.eq_dec z fd) as [->|D]; [rewrite N0, lookup_insert in *|rewrite lookup_insert_ne by congruence; exact K].
  intros d E. apply Some_inj in E. subst d. split; [reflexivity|exact F].
Qed.
Lemma kept_refl t : kept t t.
Proof. intros fd. destruct (t !! fd) eqn:E; [reflexivity|]. intros d H. congruence. Qed.

Lemma create_inv t n x t' : create_std_fds t n x = Some t' ->
  t !! n_out x = None /\ t !! n_out' x = None /\ t !! n_err x = None /\ t !! n_err' x = None /\
  (n_out x <> n_out' x /\ n_out x <> n_err x /\ n_out x <> n_err' x /\ n_out' x <> n_err x /\ n_out' x <> n_err' x /\ n_err x <> n_err' x) /\
  t' = <[n_err x := {| d_file := FReader n false; d_cloexec := true |}]> (<[n_out x := {| d_file := FReader n true; d_cloexec := true |}]>
       (<[n_err' x := {| d_file := FWriter n false; d_cloexec := false |}]> (<[n_out' x := {| d_file := FWriter n true; d_cloexec := false |}]> t))).
Proof.
  unfold create_std_fds. intros H.
  apply opt_bind_inv in H. destruct H as (t1 & O1 & H). apply opt_bind_inv in H. destruct H as (t2 & O2 & H).
  apply opt_bind_inv in H. destruct H as (t3 & O3 & H). apply opt_bind_inv in H. destruct H as (t4 & O4 & H).
  apply opt_bind_inv in H. destruct H as (t5 & O5 & H).
  apply open_inv in O1, O2, O3, O4. destruct O1 as (N1 & ->). destruct O2 as (N2 & ->). destruct O3 as (N3 & ->). destruct O4 as (N4 & ->).
  apply lookup_insert_None in N2, N4. destruct N2 as [N2 D21].
  destruct N4 as [N4 D43]. apply lookup_insert_None in N4. destruct N4 as [N4 D42]. apply lookup_insert_None in N4. destruct N4 as [N4 D41].
  apply lookup_insert_None in N3. destruct N3 as [N3 D32]. apply lookup_insert_None in N3. destruct N3 as [N3 D31].
  unfold set_cloexec in O5. rewrite lookup_insert_ne, lookup_insert_ne, lookup_insert_ne, lookup_insert in O5 by congruence. apply Some_inj in O5. subst t5. cbn in H.
  unfold set_cloexec in H. rewrite lookup_insert_ne, lookup_insert_ne, lookup_insert in H by congruence. apply Some_inj in H. subst t'. cbn.
  repeat (split; [assumption|]). split.
  { auto 10. }
  apply map_eq. intros z. 
  destruct (Z.eq_dec z (n_err x)) as [->|Q1]; [rewrite !lookup_insert; reflexivity|]. rewrite !(lookup_insert_ne _ (n_err x) z) by congruence.
  destruct (Z.eq_dec z (n_out x)) as [->|Q2]; [rewrite !lookup_insert; reflexivity|]. rewrite !(lookup_insert_ne _ (n_out x) z) by congruence.
  destruct (Z.eq_dec z (n_err' x)) as [->|Q3]; [rewrite !lookup_insert; reflexivity|]. rewrite !(lookup_insert_ne _ (n_err' x) z) by congruence.
  rewrite (lookup_insert_ne _ (n_err x) z) by congruence.
  destruct (Z.eq_dec z (n_out' x)) as [->|Q4]; [rewrite !lookup_insert; reflexivity|]. rewrite !(lookup_insert_ne _ (n_out' x) z) by congruence.
  rewrite (lookup_insert_ne _ (n_out x) z) by congruence. reflexivity.
Qed.

Lemma kept_act t0 s a s' : (forall fd x, t0 !! fd = Some x -> d_file x = FInherited fd) -> kept t0 (f_table s) -> act s a = Some s' -> kept t0 (f_table s').
Proof.
  intros I0 K H. destruct a as [x| |fd|fd]; cbn in H.
  - destruct (create_std_fds _ _ _) as [t|] eqn:C; [|discriminate]. apply Some_inj in H. subst s'. cbn.
    apply create_inv in C. destruct C as (N1 & N2 & N3 & N4 & D & ->). intros z. assert (Kz := K z).
    apply (kept_none _ _ _ K) in N1, N2, N3, N4.
    destruct (t0 !! z) as [d|] eqn:Z0.
    + rewrite !lookup_delete_ne, !lookup_insert_ne by congruence. exact Kz.
    + intros d. rewrite !lookup_delete_Some. intros (E1 & E2 & E). revert E. rewrite lookup_insert_Some. intros [[_ <-]|[_ E]]; [split; [reflexivity|exact Logic.I]|].
      apply lookup_insert_Some in E. destruct E as [[_ <-]|[_ E]]; [split; [reflexivity|exact Logic.I]|].
      rewrite !lookup_insert_ne in E by congruence. auto.
  - apply Some_inj in H. subst. exact K.
  - destruct (f_table s !! fd) as [[[] b]|] eqn:E; try discriminate. apply Some_inj in H. subst. cbn. intros z. assert (Kz := K z).
    destruct (t0 !! z) eqn:Z0.
    + destruct (Z.eq_dec z fd) as [->|]; [|rewrite lookup_delete_ne by congruence; exact Kz]. exfalso. apply I0 in Z0. rewrite Kz in E. injection E as ->. discriminate Z0.
    + intros d' Hd. apply lookup_delete_Some in Hd. apply Kz. tauto.
  - destruct (open (f_table s) fd FReport false) as [t|] eqn:O; [|discriminate]. apply open_inv in O. destruct O as [N ->]. apply Some_inj in H. subst s'. cbn.
    rewrite delete_idemp, delete_insert by exact N. exact K.
Qed.
Lemma kept_acts t0 l : forall s s', (forall fd x, t0 !! fd = Some x -> d_file x = FInherited fd) -> kept t0 (f_table s) -> acts s l = Some s' -> kept t0 (f_table s').
Proof.
  induction l as [|a l IH]; cbn; intros s s' I0 K H; [apply Some_inj in H; subst; exact K|].
  destruct (act s a) as [s1|] eqn:A; [|discriminate]. eapply IH; [exact I0|eapply kept_act; eauto|exact H].
Qed.
Lemma kept_reachable t0 s : inherited t0 -> fd_reachable t0 s -> kept t0 (f_table s).
Proof.
  intros (I0 & _) (a & b & c & d & t1 & l & O & A). eapply kept_acts; [exact I0| |exact A]. cbn. unfold own_fds in O.
  apply opt_bind_inv in O. destruct O as (u1 & O1 & O). apply opt_bind_inv in O. destruct O as (u2 & O2 & O). apply opt_bind_inv in O. destruct O as (u3 & O3 & O4).
  assert (K1 := kept_open _ _ _ _ _ (kept_refl t0) O1 Logic.I). assert (K2 := kept_open _ _ _ _ _ K1 O2 Logic.I). assert (K3 := kept_open _ _ _ _ _ K2 O3 Logic.I).
  exact (kept_open _ _ _ _ _ K3 O4 Logic.I).
Qed.

(** What cinit itself holds. *)
Lemma cinit_holds t0 s : inherited t0 -> fd_reachable t0 s -> forall fd,
  match t0 !! fd with
  | Some d => f_table s !! fd = Some d
  | None => forall d, f_table s !! fd = Some d -> d_cloexec d = true /\ ((exists what, d_file d = FOwn what) \/ exists n out, d_file d = FReader n out)
  end.
Proof.
  intros I0 R fd. assert (K := kept_reachable _ _ I0 R fd). destruct (t0 !! fd); [exact K|]. intros d E. destruct (K d E) as [C F]. split; [exact C|].
  destruct (d_file d); try destruct F; eauto.
Qed.

Lemma forked_ready t0 s x t mask ign dir k : inherited t0 -> fd_reachable t0 s -> forked s x = Some t ->
  ready (fresh_child t mask ign dir k) (n_out' x) (n_err' x) (FWriter (f_count s) true) (FWriter (f_count s) false).
Proof.
  intros I0 R F. assert (K := kept_reachable _ _ I0 R). apply create_inv in F. destruct F as (N1 & N2 & N3 & N4 & (D1 & D2 & D3 & D4 & D5 & D6) & ->).
  apply (kept_none _ _ _ K) in N2, N4. destruct I0 as (_ & [x1 E1] & [x2 E2]). unfold ready. cbn.
  split; [exists false; rewrite !lookup_insert_ne, lookup_insert by congruence; reflexivity|].
  split; [exists false; rewrite !lookup_insert_ne, lookup_insert by congruence; reflexivity|]. repeat split; congruence.
Qed.

(** What a program holds. *)
Lemma program_holds t0 s x t fd : inherited t0 -> fd_reachable t0 s -> forked s x = Some t ->
  exec_fds (streams t (n_out' x) (n_err' x) (FWriter (f_count s) true) (FWriter (f_count s) false)) !! fd =
  if fd =? 1 then Some {| d_file := FWriter (f_count s) true; d_cloexec := false |}
  else if fd =? 2 then Some {| d_file := FWriter (f_count s) false; d_cloexec := false |}
  else match t0 !! fd with Some d => if d_cloexec d then None else Some d | None => None end.
Proof.
  intros I0 R F. destruct (forked_ready _ _ _ _ [] ∅ "" {| c_ruid := 0; c_euid := 0; c_suid := 0; c_rgid := 0; c_egid := 0; c_sgid := 0; c_groups := []; c_prm := ∅; c_eff := ∅; c_inh := ∅; c_amb := ∅; c_bnd := ∅; c_keep := false |} I0 R F) as (_ & _ & M1 & M2 & M3 & M4).
  assert (K := kept_reachable _ _ I0 R). apply create_inv in F. destruct F as (N1 & N2 & N3 & N4 & (D1 & D2 & D3 & D4 & D5 & D6) & ->).
  assert (Z1 := kept_none _ _ _ K N1). assert (Z2 := kept_none _ _ _ K N2). assert (Z3 := kept_none _ _ _ K N3). assert (Z4 := kept_none _ _ _ K N4).
  destruct I0 as (_ & [x1 E1] & [x2 E2]).
  destruct (Z.eqb_spec fd 1) as [->|F1].
  { apply map_filter_lookup_Some. split; [apply streams_1; auto|reflexivity]. }
  destruct (Z.eqb_spec fd 2) as [->|F2].
  { apply map_filter_lookup_Some. split; [apply streams_2; auto|reflexivity]. }
  assert (Kf := K fd). destruct (t0 !! fd) as [d|] eqn:E0.
  - assert (E : streams (<[n_err x := {| d_file := FReader (f_count s) false; d_cloexec := true |}]> (<[n_out x := {| d_file := FReader (f_count s) true; d_cloexec := true |}]>
       (<[n_err' x := {| d_file := FWriter (f_count s) false; d_cloexec := false |}]> (<[n_out' x := {| d_file := FWriter (f_count s) true; d_cloexec := false |}]> (f_table s)))))
       (n_out' x) (n_err' x) (FWriter (f_count s) true) (FWriter (f_count s) false) !! fd = Some d).
    { unfold streams. rewrite !lookup_delete_ne, !lookup_insert_ne by congruence. exact Kf. }
    destruct (d_cloexec d) eqn:C.
    + apply map_filter_lookup_None. right. intros d' Hd'. rewrite E in Hd'. injection Hd' as <-. cbn. congruence.
    + apply map_filter_lookup_Some. split; [exact E|exact C].
  - apply map_filter_lookup_None. destruct (Z.eq_dec fd (n_out' x)) as [->|]; [left; unfold streams; rewrite lookup_delete_ne, lookup_delete by congruence; reflexivity|].
    destruct (Z.eq_dec fd (n_err' x)) as [->|]; [left; unfold streams; rewrite lookup_delete by congruence; reflexivity|].
    right. intros d Hd. cbn. unfold streams in Hd. rewrite !lookup_delete_ne, (lookup_insert_ne _ 2), (lookup_insert_ne _ 1) in Hd by congruence.
    apply lookup_insert_Some in Hd. destruct Hd as [[_ <-]|[_ Hd]]; [discriminate|]. apply lookup_insert_Some in Hd. destruct Hd as [[_ <-]|[_ Hd]]; [discriminate|].
    rewrite !lookup_insert_ne in Hd by congruence. destruct (Kf d Hd) as [-> _]. discriminate.
Qed.
