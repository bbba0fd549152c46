(** The descriptors of cinit from its start to its end. *)
From stdpp Require Import gmap strings.
From Coq Require Import ZArith List Bool Permutation.
From Verif Require Import Base ConfigModel ProcessModel DepModel MainModel SetupModel SpecMain SpecSetup ManagerModel SysModel SpecRun
  ChildModel FdModel SpecChild.
Import ListNotations.
Local Open Scope string_scope.
Local Open Scope list_scope.
Local Open Scope Z_scope.

(** The same descriptor in the model of the set-up and in the model of descriptors. *)
Definition file_of (fd : Z) (o : object) : file :=
  match o with
  | OOther => FInherited fd
  | OSignals _ => FOwn "signalfd"
  | OSock x => match k_type x with Stream => FOwn "status socket" | Datagram => FOwn "notify socket" end
  | OEpoll _ => FOwn "epoll"
  end.
Definition same_table (m : gmap Z (object * bool)) (t : table) : Prop :=
  forall fd, t !! fd = match m !! fd with Some (o, b) => Some {| d_file := file_of fd o; d_cloexec := b |} | None => None end.

(** cinit is started with the descriptors [t0] on host [h], the kernel answers the
    set-up with [a], and the event loop works with the descriptors it was given. *)
Definition suits (k : machine) (a : SetupModel.answers) (h : SetupModel.host) (e : env) (t0 : table) : Prop :=
  honest k /\ fresh a h /\ inherited t0 /\ same_table (SetupModel.h_fds h) t0 /\ e_zone e = m_zone k /\
  (forall l, Permutation (e_order e l) l) /\ e_signal e = f_signal a /\ e_status e = f_status a /\ e_notify e = f_notify a.

(** What the effects of a step mean for the descriptors. *)
Definition about_descriptors (ev : event) : Prop :=
  match ev with EStart _ _ | EStartFail _ | EOpen _ _ _ | EClosed _ | EReport _ => True | _ => False end.
Inductive moves : list event -> list action -> Prop :=
| mv_none : moves [] []
| mv_start id pid x evs l : moves evs l -> moves (EStart id pid :: EOpen (n_out x) id true :: EOpen (n_err x) id false :: evs) (AStart x :: l)
| mv_fail id evs l : moves evs l -> moves (EStartFail id :: evs) (AStartFail :: l)
| mv_closed fd evs l : moves evs l -> moves (EClosed fd :: evs) (AHangup fd :: l)
| mv_report text fd evs l : moves evs l -> moves (EReport text :: evs) (AReport fd :: l)
| mv_other ev evs l : ~ about_descriptors ev -> moves evs l -> moves (ev :: evs) l.

(** The event loop and the descriptors, together, from the start of cinit. *)
Inductive booted (k : machine) (a : SetupModel.answers) (h : SetupModel.host) (e : env) (configs : list proc_config) : sys -> fdstate -> Prop :=
| bt_start an h' others t1 : run_on k a h = (Ret (EntersLoop configs an), h') -> plausible others -> same_table (SetupModel.h_fds h') t1 ->
    booted k a h e configs (initial (a_processes an) (a_dep an) (a_cron an) others) {| f_table := t1; f_count := 0 |}
| bt_step s st o s' evs l st' : booted k a h e configs s st -> sstep e s o = Some s' -> s_hist s' = s_hist s ++ evs -> moves evs l ->
    acts st l = Some st' -> booted k a h e configs s' st'.

(** The four descriptors cinit opens for itself. *)
Definition own_desc (a : SetupModel.answers) (fd : Z) (d : desc) : Prop :=
  exists what, d = {| d_file := FOwn what; d_cloexec := true |} /\
    ((fd = f_signal a /\ what = "signalfd") \/ (fd = f_status a /\ what = "status socket") \/
     (fd = f_notify a /\ what = "notify socket") \/ (fd = f_epoll a /\ what = "epoll")).

(** The number of starts so far. *)
Fixpoint starts (h : list event) : nat :=
  match h with
  | [] => 0
  | EStart _ _ :: rest => S (starts rest)
  | _ :: rest => starts rest
  end.

(** A stream of the program started as number [n], counted from 0, is open. *)
Definition stream_desc (h : list event) (fd : Z) (d : desc) : Prop :=
  exists h1 id out h2 n, h = h1 ++ EOpen fd id out :: h2 /\ ~ In (EClosed fd) h2 /\ starts h1 = S n /\
    d = {| d_file := FReader n out; d_cloexec := true |}.
