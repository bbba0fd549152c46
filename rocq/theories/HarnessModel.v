(** Model of the test program src/programs/harness.rs: what it writes about itself into a
    file, and the code with which it ends.  The options are in HarnessCliModel.v, the
    notifications and the time it sleeps in HarnessLifeModel.v. *)
From stdpp Require Import gmap strings.
From Coq Require Import Ascii ZArith List Bool.
From Verif Require Import Base RStr ChildModel.
Import ListNotations.
Local Open Scope string_scope.
Local Open Scope list_scope.
Local Open Scope Z_scope.

(** What the kernel tells a process about itself: arguments, working directory, user,
    group, supplementary groups, whether both output streams are terminals, capability
    sets, and the strings of its environment. *)
Record self := {
  se_args : list string;
  se_dir : string;
  se_uid : Z;
  se_gid : Z;
  se_groups : list Z;
  se_tty : bool;
  se_eff : gset Z; se_prm : gset Z; se_inh : gset Z; se_amb : gset Z;
  se_env : list string
}.

(** A text that has to be UTF-8 ([std::env::args], [Path::to_str], [std::env::vars]). *)
Definition utf8 (s : string) (f : string -> string) : outcome string :=
  if utf8_valid s then Ret (f s) else Panic "not UTF-8".

(** [std::env::vars]: entries without a name or without "=" behind it are passed over.
    The name may start with "=" (library/std/src/sys/pal/unix/os.rs). *)
Definition variable (entry : string) : option (string * string) :=
  match entry with
  | EmptyString => None
  | String a r => match splitn2 "=" r with (_, None) => None | (k, Some v) => Some (String a k, v) end
  end.
Definition nl : string := String LF "".

(** src/programs/harness.rs:193-204: the letters for one capability *)
Definition letters (s : self) (x : Z) : string :=
  (if has (se_eff s) x then "e" else "") +:+ (if has (se_prm s) x then "p" else "") +:+
  (if has (se_inh s) x then "i" else "") +:+ (if has (se_amb s) x then "a" else "").
Definition cap_name (x : Z) : string := nth (Z.to_nat x) cap_names "".

(** src/programs/harness.rs:190-217.  [order] is the iteration order of the hash set
    [caps::all]. *)
Fixpoint cap_loop (s : self) (printed : bool) (order : list Z) : list (outcome string) :=
  match order with
  | [] => if printed then [] else [Ret (" {}" +:+ nl)]
  | x :: rest =>
      let sets := letters s x in
      if nonempty sets then
        (if printed then [] else [Ret nl]) ++ Ret ("      " +:+ cap_name x +:+ ": " +:+ sets +:+ nl) :: cap_loop s true rest
      else cap_loop s printed rest
  end.

(** src/programs/harness.rs:139-232: what is written, piece after piece; a panic ends it.
    Simplification: all writes to the file succeed. *)
Definition pieces (order : list Z) (s : self) : list (outcome string) :=
  [Ret ("programs:" +:+ nl); Ret ("  - args:" +:+ nl)] ++
  map (fun a => utf8 a (fun a => "      - '" +:+ a +:+ "'" +:+ nl)) (se_args s) ++
  [utf8 (se_dir s) (fun d => "    workdir: '" +:+ d +:+ "'" +:+ nl);
   Ret ("    uid: " +:+ show_Z (se_uid s) +:+ nl); Ret ("    gid: " +:+ show_Z (se_gid s) +:+ nl); Ret ("    groups:" +:+ nl)] ++
  map (fun g => Ret ("      - " +:+ show_Z g +:+ nl)) (se_groups s) ++
  [Ret ("    pty: " +:+ (if se_tty s then "true" else "false") +:+ nl); Ret "    capabilities:"] ++
  cap_loop s false order ++
  [Ret ("    env:" +:+ nl)] ++
  flat_map (fun entry => match variable entry with
                         | None => []
                         | Some (k, v) => [if utf8_valid k && utf8_valid v then Ret ("      " +:+ k +:+ ": '" +:+ v +:+ "'" +:+ nl) else Panic "not UTF-8"]
                         end) (se_env s) ++
  [Ret nl].

(** What is in the file in the end, and whether the program got that far. *)
Fixpoint dumped (l : list (outcome string)) : string * bool :=
  match l with
  | [] => ("", true)
  | Ret t :: rest => let (r, ok) := dumped rest in (t +:+ r, ok)
  | Panic _ :: _ => ("", false)
  end.
Definition dump (order : list Z) (s : self) : string * bool := dumped (pieces order s).

(** What a child that executes the program finds.  [place] is the absolute path of its
    working directory (getcwd), [tty] whether its streams are terminals. *)
Definition self_of (place : string -> string) (tty : bool) (c : child) : self :=
  {| se_args := match ch_image c with Some (_, args, _) => args | None => [] end;
     se_dir := place (ch_dir c);
     se_uid := c_ruid (ch_cred c); se_gid := c_rgid (ch_cred c); se_groups := c_groups (ch_cred c); se_tty := tty;
     se_eff := c_eff (ch_cred c); se_prm := c_prm (ch_cred c); se_inh := c_inh (ch_cred c); se_amb := c_amb (ch_cred c);
     se_env := match ch_image c with Some (_, _, env) => env | None => [] end |}.
