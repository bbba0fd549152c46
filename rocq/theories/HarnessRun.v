(** Lemmas from the entries of a program to the file the harness leaves. *)
From stdpp Require Import gmap strings.
From Coq Require Import Ascii ZArith List Bool Lia Permutation.
From Verif Require Import Base RStr ConfigModel ProcessModel EnvModel DepModel ManagerModel SysModel MainModel ChildModel FdModel
  SpecStr SpecConfig ConfigProofs SpecEnv SpecMain SpecRun SpecChild EnvProofs MainProofs RunStep RunInv RunSteps4 ChildThms.
From Verif Require Import YamlModel SpecYaml YamlProofs SpecEnd EndProofs SpecDropin DropinProofs HarnessModel SpecHarness HarnessProofs SpecHarnessRun.
Import ListNotations.
Local Open Scope string_scope.
Local Open Scope list_scope.
Local Open Scope Z_scope.

Lemma proper_variables env seen : presents env seen -> (forall k v, seen !! k = Some v -> k <> "" /\ free_of "="%char k) ->
  forall vs, variables env vs -> forall k v, In (k, v) vs <-> seen !! k = Some v.
Proof.
  intros P N vs V k v. apply variables_of in V. subst vs.
  assert (U : forall k v, seen !! k = Some v -> is_variable (binding k v) k v).
  { intros a b H. apply N in H. destruct H as [H F]. split; [reflexivity|]. destruct a as [|c r]; [contradiction|]. exists c, r. split; [reflexivity|].
    intros K. apply F. now right. }
  split.
  - intros K. apply vars_in in K. destruct K as (e & K & W). apply P in K. destruct K as (k' & v' & S & ->). specialize (U _ _ S).
    apply variable_iff in U, W. rewrite U in W. injection W as <- <-. exact S.
  - intros S. unfold vars_of. apply in_flat_map. exists (binding k v). split; [apply P; eauto|]. specialize (U _ _ S). apply variable_iff in U. rewrite U. now left.
Qed.

Theorem harness_entries k lib syntax e configs s ls id q h fault t0 st x mask ign dir cr ch place :
  SpecYaml.any_order lib -> m_yaml k = read_yaml lib syntax -> ordinary k syntax -> SpecEnv.any_order (m_world k) -> consistent (m_world k) ->
  reachable k e configs s -> g_procs (s_g s) !! id = Some q -> entries_of k syntax (p_name q) ls ->
  inherited t0 -> fd_reachable t0 st -> launch h fault q st x mask ign dir cr (Runs ch) ->
  as_entries lib (m_world k) place ls (self_of place (p_pty q) ch).
Proof.
  intros AO MY ORD AW CW R Hq EO I0 F0 L.
  destruct (runs_all_entries _ _ _ _ _ _ _ _ _ _ _ _ _ _ _ _ _ _ _ AO MY ORD AW CW R Hq EO I0 F0 L) as [T _].
  destruct (settings_kept _ _ _ _ _ _ R Hq) as (c & q0 & Hc & P & SS).
  destruct (reachable_settings _ _ _ _ R) as (_ & parsed & RA & M).
  assert (PP := P). apply process_from_ok in PP. destruct PP as (u & g & path & _ & _ & Pp & _ & _ & _ & _ & _ & Nm & _ & Pt & Pc & _).
  assert (G : together lib ls c).
  { eapply loaded_together; eauto; [eapply nth_error_In; eauto|congruence|]. destruct SS as (N & _). rewrite <- Nm, N. exact EO. }
  destruct (launch_runs _ _ _ _ _ _ _ _ _ _ _ I0 F0 L ch eq_refl) as (D & _).
  constructor; cbn [self_of se_uid se_gid se_groups se_dir se_tty se_eff se_prm se_inh se_amb se_args se_env].
  - intros l m I H. exact (proj1 (ru_uid _ _ _ _ T l m I H)).
  - intros l m I H. destruct (ru_user _ _ _ _ T l m I H) as (y & W & E & _). eauto.
  - intros H. exact (proj1 (ru_root _ _ _ _ T H)).
  - intros l m I H. exact (proj1 (ru_gid _ _ _ _ T l m I H)).
  - intros l m I H. destruct (ru_group _ _ _ _ T l m I H) as (y & W & E & _). eauto.
  - intros H. exact (proj1 (ru_root_group _ _ _ _ T H)).
  - destruct D as (_ & _ & _ & D4 & _ & _ & D7 & _). rewrite D4, D7. reflexivity.
  - intros l d I H. f_equal. exact (ru_dir _ _ _ _ T l d I H).
  - intros H. f_equal. exact (ru_here _ _ _ _ T H).
  - destruct SS as (_ & _ & _ & _ & _ & _ & Sp & _). rewrite <- Sp, Pt. exact (to_pty _ _ _ G).
  - intros U z. assert (U' : p_uid q <> 0) by (destruct D as (D & _); congruence).
    destruct (caps_nonroot _ _ _ _ _ _ _ _ _ _ _ I0 F0 L ch eq_refl U') as (A1 & A2 & A3 & A4 & _). cbv zeta.
    assert (X : configured q z <-> exists l, In l ls /\ listed l z).
    { unfold configured. destruct SS as (_ & _ & _ & _ & _ & _ & _ & Sc & _). rewrite <- Sc, Pc. split.
      - intros (name & I & Lc). apply (to_caps _ _ _ G) in I. destruct I as (l & Il & ys & y & Ey & Iy & Ty). exists l. split; [exact Il|]. exists ys, y, name. auto.
      - intros (l & Il & ys & y & name & Ey & Iy & Ty & Lc). exists name. split; [|exact Lc]. apply (to_caps _ _ _ G). exists l. split; [exact Il|]. exists ys, y. auto. }
    rewrite (A1 z), (A2 z), (A3 z), (A4 z). tauto.
  - destruct (ru_image _ _ _ _ T) as (l & rest & pa & args & env & m & v & t & raws & envs & H1 & H2 & H3 & H4 & H5 & H6 & H7 & H8 & H9 & H10 & H11).
    exists l, rest, pa, args, m, v, t, raws, envs. rewrite H3.
    split; [exact H1|]. split; [exact H2|]. split; [reflexivity|]. split; [exact H4|]. split; [exact H5|]. split; [exact H6|]. split; [exact H7|]. split; [exact H8|].
    cbv zeta. split; [exact H10|]. split; [exact H11|]. split; [exact H9|]. intros N vs V. exact (proper_variables _ _ H9 N vs V).
Qed.
Theorem harness_file k lib syntax e configs s ls id q h fault t0 st x mask ign dir cr ch place order :
  SpecYaml.any_order lib -> m_yaml k = read_yaml lib syntax -> ordinary k syntax -> SpecEnv.any_order (m_world k) -> consistent (m_world k) ->
  reachable k e configs s -> g_procs (s_g s) !! id = Some q -> entries_of k syntax (p_name q) ls ->
  inherited t0 -> fd_reachable t0 st -> launch h fault q st x mask ign dir cr (Runs ch) ->
  Permutation order all_caps -> readable (self_of place (p_pty q) ch) ->
  exists text self, dump order (self_of place (p_pty q) ch) = (text, true) /\ page self text /\ as_entries lib (m_world k) place ls self.
Proof.
  intros AO MY ORD AW CW R Hq EO I0 F0 L P Rd.
  destruct (dump_page order _ P Rd) as (text & D & G). exists text, (self_of place (p_pty q) ch). split; [exact D|]. split; [exact G|].
  eapply harness_entries; eassumption.
Qed.
