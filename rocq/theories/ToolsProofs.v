(** Proofs about the test programs as programs of cinit. *)
From stdpp Require Import gmap strings.
From Coq Require Import ZArith List Bool Lia Permutation.
From Verif Require Import Base RStr ChildModel ProcessModel FdModel SpecChild SpecStr SpecText ChildProofs ChildThms RStrProofs HarnessModel SpecHarness HarnessProofs
  HarnessLifeModel SpecHarnessLife HarnessLifeProofs SpecTools ForkerModel SpecForker ForkerProofs.
Import ListNotations.
Local Open Scope string_scope.
Local Open Scope list_scope.
Local Open Scope Z_scope.

Lemma harness_ends o l acts c : harness o l = (acts, Ends c) -> ~ fault o l ->
  exists n k, own_code o c /\ u64_text (o_sleep o) n /\ whole o l k acts /\ Z.of_nat k <= n /\ (Z.of_nat k = n \/ exists s t, waits l s /\ In s (l_arrives l t)).
Proof.
  intros H F. destruct (harness_course o l acts _ H) as (_ & [(s & t & E & _)|[[_ X]|(c' & n & k & E & A & B & C & _ & D)]]); [discriminate|destruct (F X)|].
  injection E as <-. exists n, k. exact (conj A (conj B (conj C D))).
Qed.
Lemma harness_fault o l acts c : harness o l = (acts, Ends c) -> fault o l -> c = 101.
Proof.
  intros H F. destruct (harness_course o l acts _ H) as (_ & [(s & t & E & _)|[[E _]|(c' & n & k & E & A & _ & _ & X & _)]]); [discriminate|injection E as ->; auto|].
  destruct (X F).
Qed.
Lemma harness_killed o l acts s : harness o l = (acts, Killed s) -> exists t, In s (l_arrives l t) /\ kills l s.
Proof.
  intros H. destruct (harness_course o l acts _ H) as (_ & [(s' & t & E & A)|[[E _]|(c' & n & k & E & _)]]); [|discriminate|discriminate].
  injection E as <-. exists t. exact A.
Qed.
Lemma harness_undisturbed o l n c : ~ fault o l -> (forall s t, In s (l_arrives l t) -> ~ kills l s /\ ~ waits l s) ->
  u64_text (o_sleep o) n -> own_code o c -> exists acts, harness o l = (acts, Ends c) /\ whole o l (Z.to_nat n) acts.
Proof.
  intros F Q U O. destruct (harness o l) as [acts e] eqn:H. exists acts. destruct e as [c'|s].
  - destruct (harness_ends o l acts c' H F) as (n' & k & O' & U' & W & L & E).
    assert (n' = n).
    { apply parse_u64_spec in U. apply parse_u64_spec in U'. congruence. }
    subst n'. destruct E as [E|(s & t & Y & I)]; [|destruct (Q s t I) as [_ X]; destruct (X Y)].
    assert (c' = c).
    { destruct O as [(x & I & ->)|[N ->]], O' as [(x' & I' & ->)|[N' ->]]; [|destruct (N' x I)|destruct (N x' I')|reflexivity].
      apply NotifyProofs.parse_i32_spec in I. apply NotifyProofs.parse_i32_spec in I'. rewrite I in I'. injection I' as ->. reflexivity. }
    subst c'. split; [reflexivity|]. replace (Z.to_nat n) with k by lia. exact W.
  - destruct (harness_killed o l acts s H) as (t & I & K). destruct (Q s t I) as [X _]. destruct (X K).
Qed.

Lemma harness_launched h fault' p t0 st x mask ign dir cr ch o l acts e : inherited t0 -> fd_reachable t0 st ->
  launch h fault' p st x mask ign dir cr (Runs ch) -> finds ch l -> harness o l = (acts, e) -> ~ fault o l ->
  (exists n c, e = Ends c /\ own_code o c /\ u64_text (o_sleep o) n /\ whole o l (Z.to_nat n) acts) \/
  (exists s t, e = Killed s /\ In s (l_arrives l t) /\ (s = 9 \/ ~ In s [17; 18; 19; 20; 21; 22; 23; 28] /\ s <> 13 /\ s ∉ ign)).
Proof.
  intros I R L [B G] H F. pose proof (proj1 (launch_runs _ _ _ _ _ _ _ _ _ _ _ I R L ch eq_refl)) as D.
  assert (M : ch_mask ch = []) by apply D. assert (NW : forall s, ~ waits l s).
  { intros s (W & _). apply B in W. rewrite M in W. destruct W. }
  destruct e as [c|s].
  - left. destruct (harness_ends o l acts c H F) as (n & k & O & U & W & K & [E|(s & t & Y & _)]); [|destruct (NW s Y)].
    exists n, c. split; [reflexivity|]. split; [exact O|]. split; [exact U|]. replace (Z.to_nat n) with k by lia. exact W.
  - right. destruct (harness_killed o l acts s H) as (t & J & _ & K). exists s, t. split; [reflexivity|]. split; [exact J|].
    destruct K as [K|(K1 & K2 & K3)]; [left; exact K|right]. split; [exact K1|]. split; [exact K2|]. intros X.
    assert (Y : l_ignored l s = true); [|congruence]. apply G. apply (ignores _ _ _ _ _ _ _ _ _ _ _ I R L ch eq_refl). left. exact X.
Qed.

Lemma content_app a b : content (a ++ b) = content a +:+ content b.
Proof.
  induction a as [|x a IH]; [reflexivity|]. destruct x; cbn [app content]; rewrite IH; try reflexivity. rewrite sapp_assoc. reflexivity.
Qed.
Lemma content_none a : (forall t, ~ In (Writes t) a) -> content a = "".
Proof.
  induction a as [|x a IH]; intros N; [reflexivity|].
  destruct x; cbn [content]; try (apply IH; intros t I; apply (N t); right; exact I). destruct (N text). left. reflexivity.
Qed.
Lemma content_writes ws : dumped (map Ret ws) = (content (map Writes ws), true).
Proof. induction ws as [|w ws IH]; [reflexivity|]. cbn [map dumped content]. rewrite IH. reflexivity. Qed.
Lemma harness_content o l acts c order s : harness o l = (acts, Ends c) -> ~ fault o l -> Permutation order all_caps -> l_pieces l = pieces order s ->
  page s (content acts).
Proof.
  intros H F P E. destruct (harness_ends o l acts c H F) as (n & k & _ & _ & (wr & A & ->) & _).
  assert (D : dump order s = (content (map Writes wr), true)) by (unfold dump; rewrite <- E, A; apply content_writes).
  assert (Q : content (map Sends (messages o) ++ Opens (o_output o) :: map Writes wr ++ repeat Second k) = content (map Writes wr)).
  { rewrite content_app. rewrite (content_none (map Sends _)) by (intros t I; apply in_map_iff in I; destruct I as (x & X & _); discriminate).
    cbn [content]. rewrite content_app. rewrite (content_none (repeat _ _)) by (intros t I; apply repeat_spec in I; discriminate).
    change ("" +:+ (content (map Writes wr) +:+ "")) with (content (map Writes wr) +:+ ""). apply append_nil_r. }
  rewrite Q. assert (Y : readable s) by (apply (dump_complete order s); rewrite D; reflexivity).
  destruct (dump_page order s P Y) as (text & D' & G). rewrite D in D'. injection D' as ->. exact G.
Qed.

Lemma forker_out b n l s : leads b n l s -> exists a t, Permutation (f_out s) (a ++ t) /\
  (a = ["Grandchild exitted"] /\ In KidSays l \/ a = [] /\ ~ In KidSays l) /\
  (t = ["Timeout waiting for child"] /\ f_stage s = Over 255 \/ t = [] /\ f_stage s <> Over 255).
Proof.
  intros L. pose proof (leads_out b n l s L) as P. pose proof (leads_says b n l s L) as Y. eexists _, _. split; [exact P|]. split.
  - destruct (silent (f_kid s)); [right|left]; split; try reflexivity; [intros I; apply Y in I; discriminate|apply Y; reflexivity].
  - destruct (f_stage s) as [k|c] eqn:E; [right; split; [reflexivity|discriminate]|].
    destruct (code_cases b n l s c L E) as [->| ->]; [right; split; [reflexivity|discriminate]|left; split; reflexivity].
Qed.
Lemma forker_launched h fault' p t0 st x mask ign dir cr ch n l1 l2 s : inherited t0 -> fd_reachable t0 st ->
  launch h fault' p st x mask ign dir cr (Runs ch) -> leads (existsb (Z.eqb 17) (ch_mask ch)) n (l1 ++ Looks :: l2) s ->
  (f_stage s = Over 0 /\ reason l1) \/ (f_stage s = Over 255 /\ ~ reason l1).
Proof.
  intros I R L. pose proof (proj1 (launch_runs _ _ _ _ _ _ _ _ _ _ _ I R L ch eq_refl)) as D.
  assert (M : ch_mask ch = []) by apply D. rewrite M. apply looked.
Qed.
