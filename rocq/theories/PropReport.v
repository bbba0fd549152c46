(** Property C72: writing the status report. *)
From stdpp Require Import gmap strings.
From Coq Require Import ZArith List Bool Lia.
From Verif Require Import Base ConfigModel ProcessModel MainModel SpecMain ManagerModel SysModel SpecRun ReportModel SpecReport ReportProofs RunExamples PropRun3.
Import ListNotations.
Local Open Scope string_scope.
Local Open Scope list_scope.
Local Open Scope nat_scope.

(** * C72: a status client gets a prefix of the report and cannot hold up cinit *)
(** Missing from the full claim: cinit goes on whatever the client does (see
    [C72_idle_client_refuted]). *)
Theorem C72_written_partial k e configs s rest s' : reachable k e configs s ->
  s_pc s = AtEvents (EvIn (e_status e) :: rest) -> e_status e <> e_signal e -> sstep e s (CEvent (AAccept true)) = Some s' ->
  exists text, s_hist s' = s_hist s ++ [EReport text] /\ s_pc s' = AtEvents rest /\ forall answers,
    let r := write_report (e_rfc3339 e) (s_g s) true answers in
    prefix_of (r_sent r) text /\ (r_end r = Finishes <-> r_sent r = text) /\ (r_end r = Finishes \/ r_end r = Fails \/ r_end r = Blocks) /\
    (faultless_replies answers -> r_end r <> Fails) /\ (String.length text <= answered answers -> r_end r <> Blocks) /\
    (faultless_replies answers -> room answers < String.length text -> r_end r = Blocks) /\
    (r_warned r = true <-> r_end r = Fails) /\
    (r_closes r = 2 <-> r_end r = Finishes) /\ (r_closes r = 1 <-> r_end r = Fails) /\ (r_closes r = 0 <-> r_end r = Blocks).
Proof. exact (fun R => report_written R rest s'). Qed.
Print Assumptions C72_written_partial.

Theorem C72_not_accepted e s rest s' : s_pc s = AtEvents (EvIn (e_status e) :: rest) -> e_status e <> e_signal e ->
  sstep e s (CEvent (AAccept false)) = Some s' ->
  s_hist s' = s_hist s /\ s_g s' = s_g s /\ s_k s' = s_k s /\ s_pc s' = AtEvents rest /\ forall answers,
    let r := write_report (e_rfc3339 e) (s_g s) false answers in r_sent r = "" /\ r_end r = Fails /\ r_warned r = true /\ r_closes r = 0.
Proof. exact (not_accepted rest s'). Qed.
Print Assumptions C72_not_accepted.

(** A client that reads slowly gets everything, one that hangs up gets a prefix. *)
Definition slow : list reply := WIntr :: repeat (WOk 3) 300.
Definition at_query : option manager := match demo listed listed_ops with Some s => Some (s_g s) | None => None end.
Definition answer_query (answers : list reply) : option (string * ending * bool * nat) :=
  match at_query with
  | Some g => let r := write_report (e_rfc3339 demo_env) g true answers in Some (r_sent r, r_end r, r_warned r, r_closes r)
  | None => None
  end.
Example C72_example : exists s, reachable (demo_machine listed) demo_env listed s /\ s_pc s = AtEvents [EvIn (e_status demo_env)] /\
  answer_query slow = Some (listed_report, Finishes, false, 2) /\
  answer_query [WOk 50; WOk 4; WErr] = Some ("programs:" +:+ nl +:+ "  - ", Fails, true, 1).
Proof.
  destruct (demo_state listed listed_ops listed_history (AtEvents [EvIn 4])) as (s & D & H & P & R); [vm_compute; reflexivity|vm_compute; reflexivity|].
  rewrite listed_configs in R. exists s. split; [exact R|]. split; [exact P|]. split; vm_compute; reflexivity.
Qed.

(** A client that connects and does not read: when the connection has no more room,
    cinit waits for it for ever, and does nothing else. *)
Theorem C72_idle_client_refuted : exists k e configs s answers, reachable k e configs s /\ s_pc s = AtEvents [EvIn (e_status e)] /\
  faultless_replies answers /\ room answers = 80 /\ r_end (write_report (e_rfc3339 e) (s_g s) true answers) = Blocks.
Proof.
  destruct (demo_state listed listed_ops listed_history (AtEvents [EvIn 4])) as (s & D & H & P & R); [vm_compute; reflexivity|vm_compute; reflexivity|].
  rewrite listed_configs in R. exists (demo_machine listed), demo_env, listed, s, (repeat (WOk 20) 4). split; [exact R|]. split; [exact P|].
  split; [split; cbn; intuition discriminate|]. split; [reflexivity|].
  assert (E : at_query = Some (s_g s)) by (unfold at_query; rewrite D; reflexivity).
  assert (A : match answer_query (repeat (WOk 20) 4) with Some (_, Blocks, _, _) => true | _ => false end = true) by (vm_compute; reflexivity).
  unfold answer_query in A. rewrite E in A. cbv beta iota zeta in A.
  destruct (r_end (write_report (e_rfc3339 demo_env) (s_g s) true (repeat (WOk 20) 4))); [discriminate A|discriminate A|reflexivity|discriminate A].
Qed.
Print Assumptions C72_idle_client_refuted.
