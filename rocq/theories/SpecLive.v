(** Vocabulary for progress and termination of the event loop. *)
From stdpp Require Import gmap strings.
From Coq Require Import ZArith List Bool.
From Verif Require Import Base RStr ConfigModel ManagerModel SysModel SpecDep SpecRun.
Import ListNotations.
Local Open Scope list_scope.
Local Open Scope Z_scope.

(** All dependencies of a program are completed. *)
Definition startable (configs : list proc_config) (h : list event) (id : nat) : Prop :=
  (id < length configs)%nat /\ ~ cronjob configs id /\ forall u, depends configs u id -> completed h u.

(** cinit has tried to start this program. *)
Definition attempted (h : list event) (id : nat) : Prop := (exists pid, In (EStart id pid) h) \/ In (EStartFail id) h.

(** The process of a program has ended, whether cinit knows or not. *)
Definition over (s : sys) (pid : Z) : Prop := exists st, k_procs (s_k s) !! pid = Some (KZombie st).

(** Nobody writes to this stream any more, and cinit is told about what is left in it. *)
Definition abandoned (s : sys) (fd : Z) (q : pipe) : Prop := pp_open q = false /\ fd ∈ g_epoll (s_g s).

(** What cinit has not read yet, and the streams it has not closed yet. *)
Definition backlog (k : kernel) : nat :=
  fold_right (fun x n => String.length (pp_buf (snd x)) + 1 + n)%nat 0%nat (map_to_list (k_pipes k)).

(** An event about the output of a program. *)
Definition of_stream (e : env) (ev : epev) : Prop :=
  match ev with EvIn fd | EvHup fd => is_fixed e fd = false | EvOther _ => False end.

(** In this execution epoll_wait reports output as long as there is some, and read
    succeeds.  (Linux reports up to 10 descriptors at a time, and only three of those
    that cinit watches are no output streams.) *)
Fixpoint attentive (e : env) (s : sys) (ops : list op) : Prop :=
  match ops with
  | [] => True
  | o :: rest =>
      match o with
      | CPoll r => (exists ev, of_stream e ev /\ ready e s ev = true) -> exists l ev, r = Some l /\ In ev l /\ of_stream e ev
      | CEvent (ARead r) => r <> None
      | _ => True
      end /\
      match sstep e s o with Some s' => attentive e s' rest | None => True end
  end.

(** Rounds of the event loop. *)
Definition rounds (ops : list op) : nat := length (List.filter (fun o => match o with CHead => true | _ => false end) ops).

(** Children cinit reaped without learning how they ended. *)
Definition lost (h : list event) : nat := length (List.filter (fun ev => match ev with ELost _ => true | _ => false end) h).

(** A step of cinit. *)
Definition inner_step (o : op) : Prop := ~ outside o.

Definition terminated (s : sys) : Prop := match s_pc s with Finished _ | Panicked _ => True | _ => False end.

(** Steps of cinit in an execution, and children it reaped. *)
Definition effort (ops : list op) : nat :=
  length (List.filter (fun o => match o with KFork _ | KGone _ | KAdopt _ | KExit _ _ | KWrite _ _ | KHangup _ => false | _ => true end) ops).
Definition reaped (h : list event) : nat := length (List.filter (fun ev => match ev with EReap _ _ => true | _ => false end) h).
