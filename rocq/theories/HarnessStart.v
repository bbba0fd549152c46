(** The harness as a program of cinit, from its command line to its end. *)
From stdpp Require Import gmap strings.
From Coq Require Import ZArith List Bool Lia.
From Verif Require Import Base RStr ChildModel ProcessModel FdModel SpecChild SpecStr SpecText ChildThms HarnessLifeModel SpecHarnessLife SpecTools ToolsProofs.
From Verif Require NotifyProofs HarnessLifeProofs HarnessCliModel SpecHarnessCli HarnessCliProofs.
Import ListNotations.
Local Open Scope string_scope.
Local Open Scope list_scope.
Local Open Scope Z_scope.

Lemma map_ret (a b : list string) : map (@Ret string) a = map Ret b -> a = b.
Proof. revert b. induction a as [|x a IH]; intros [|y b] E; try discriminate E; [reflexivity|]. inversion E. f_equal. auto. Qed.

Lemma started h fault' p t0 st x mask ign dir cr ch w name args l others written sl n cd c file :
  inherited t0 -> fd_reachable t0 st -> launch h fault' p st x mask ign dir cr (Runs ch) -> finds ch w ->
  p_args p = name :: args -> SpecHarnessCli.asks args l others ->
  (forall i, (4 <= l_socket w i)%nat) -> l_create w = true -> l_signalfd w = true -> l_pieces w = map Ret written ->
  SpecHarnessCli.chosen l HarnessCliModel.Sleep "0" sl -> u64_text sl n -> SpecHarnessCli.chosen l HarnessCliModel.Code "0" cd -> int_text cd c ->
  SpecHarnessCli.chosen l HarnessCliModel.Output "test-output/harness.txt" file ->
  ch_image ch = Some (p_path p, name :: args, p_env p) /\
  (HarnessCliModel.main args w = (map Sends ("READY=1" :: map (fun v => "STATUS=" +:+ v) (SpecHarnessCli.values HarnessCliModel.Status l)) ++
      Opens file :: map Writes written ++ repeat Second (Z.to_nat n), Ends (c mod 256)) \/
   exists acts s t, HarnessCliModel.main args w = (acts, Killed s) /\ In s (l_arrives w t) /\ (s = 9 \/ ~ In s [17; 18; 19; 20; 21; 22; 23; 28] /\ s <> 13 /\ s ∉ ign)).
Proof.
  intros I R L Fi Ar A K Cr Sf P Sl U Cd Ct Fo. split.
  - destruct (launch_runs _ _ _ _ _ _ _ _ _ _ _ I R L ch eq_refl) as (D & _). rewrite <- Ar. apply D.
  - destruct (proj1 (HarnessCliProofs.main_cases args w) _ _ A) as (o & (C1 & C2 & C3 & C4) & Rd & M).
    assert (det : forall q d v v', SpecHarnessCli.chosen l q d v -> SpecHarnessCli.chosen l q d v' -> v = v').
    { unfold SpecHarnessCli.chosen. intros q d v v' [(E & ->)|E] [(E' & ->)|E']; congruence. }
    pose proof (det _ _ _ _ Sl C2) as ->. pose proof (det _ _ _ _ Cd C1) as ->. pose proof (det _ _ _ _ Fo C3) as ->.
    assert (NF : ~ fault o w).
    { intros [(i & _ & X)|[X|[(why & X)|[X|X]]]]; [specialize (K i); lia|congruence| |exact (X _ U)|congruence].
      rewrite P in X. apply in_map_iff in X. destruct X as (? & X & _). discriminate X. }
    destruct (harness o w) as [acts e] eqn:H. destruct (harness_launched _ _ _ _ _ _ _ _ _ _ _ _ _ _ _ I R L Fi H NF) as [(n' & c' & -> & O & U' & wr & E & ->)|(s & t & -> & X)].
    + left. rewrite M. assert (n' = n) as ->.
      { apply HarnessLifeProofs.parse_u64_spec in U, U'. congruence. }
      rewrite P in E. apply map_ret in E. subst wr. f_equal.
      * f_equal. f_equal. unfold messages. rewrite Rd. destruct C4 as [(-> & ->)|(v & -> & ->)]; reflexivity.
      * destruct O as [(y & Y & ->)|(Y & _)]; [|destruct (Y _ Ct)]. apply NotifyProofs.parse_i32_spec in Y, Ct. congruence.
    + right. exists acts, s, t. auto.
Qed.
