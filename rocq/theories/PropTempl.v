(** Properties C78 - C80: templates, what is logged about them, and the default
    environment. *)
From stdpp Require Import gmap strings.
From Coq Require Import Ascii ZArith List Bool Lia.
From Verif Require Import Base RStr ConfigModel ProcessModel EnvModel LogModel TemplModel SpecEnv SpecTempl EnvProofs TemplProofs.
Import ListNotations.
Local Open Scope string_scope.
Local Open Scope list_scope.

(** A machine with tera.  Where nothing is known of tera, templates fail. *)
Definition demo_uid (i : Z) : option (option user) :=
  if (i =? 0)%Z then Some (Some {| u_uid := 0; u_name := "root"; u_dir := "/root" |}) else Some None.
Definition tera_world : world :=
  {| w_uid := demo_uid; w_user := fun _ => Some None;
     w_gid := fun i => if (i =? 0)%Z then Some (Some {| g_gid := 0 |}) else Some None; w_group := fun _ => Some None;
     w_env := fun k => if String.eqb k "PATH" then Some "/bin" else if String.eqb k "HOME" then Some "/container" else None;
     w_render := fun name env t => match tera name env t with Some r => r | None => None end;
     w_order := fun l => l |}.
Definition program (args : list string) (env : list env_map) : proc_config :=
  {| pc_name := "program"; pc_path := Some "/bin/program"; pc_args := args; pc_workdir := Some "/work";
     pc_type := Oneshot; pc_uid := None; pc_gid := None; pc_user := None; pc_group := None; pc_before := [];
     pc_after := []; pc_pty := false; pc_caps := []; pc_env := env |}.
Lemma tera_world_tera : with_tera tera_world.
Proof. intros name env t r H. cbn. rewrite H. reflexivity. Qed.
Lemma tera_world_order : any_order tera_world.
Proof. intros l. reflexivity. Qed.
Definition built (c : proc_config) : option process :=
  match process_from tera_world c with Ret (Ok p) => Some p | _ => None end.
Lemma built_from c p : built c = Some p -> process_from tera_world c = Ret (Ok p).
Proof. unfold built. destruct (process_from tera_world c) as [[q|]|]; congruence. Qed.

(** * C78: templates *)
(** The value of a variable is its template with every variable replaced by the value it
    has at this place of the list, and the template itself if one of them is not defined.
    Missing from the full claim: variables called like pages, see [C78_page_refuted]; keys
    with "=", see [C08_equals_in_key_refuted]. *)
Theorem C78_variable_partial w c p k l es1 es2 : with_tera w -> any_order w -> plain_keys c ->
  process_from w c = Ret (Ok p) -> env_entries c = es1 ++ (k, Some (text_of l)) :: es2 ->
  (forall o, In (k, o) es2 -> ~ binds w (k, o)) -> ~ (k = "NOTIFY_SOCKET" /\ pc_type c = Notify) ->
  ~ page k -> proper l ->
  exists u m v, selects (w_uid w) (w_user w) (pc_uid c) (pc_user c) u /\ env_after w u es1 m /\
    meant as_is m l v /\ sees (p_env p) k v.
Proof. exact (variable_template w c p k l es1 es2). Qed.
Print Assumptions C78_variable_partial.

(** In those called like pages the values are escaped; nothing else is different. *)
Theorem C78_page_partial w c p k l es1 es2 : with_tera w -> any_order w -> plain_keys c ->
  process_from w c = Ret (Ok p) -> env_entries c = es1 ++ (k, Some (text_of l)) :: es2 ->
  (forall o, In (k, o) es2 -> ~ binds w (k, o)) -> page k -> proper l ->
  exists u m v, selects (w_uid w) (w_user w) (pc_uid c) (pc_user c) u /\ env_after w u es1 m /\
    meant escaped m l v /\ sees (p_env p) k v.
Proof. exact (page_template w c p k l es1 es2). Qed.
Print Assumptions C78_page_partial.

(** A variable has to be defined before it is referred to. *)
Theorem C78_too_early w c p k l a n b es1 es2 : with_tera w -> any_order w -> plain_keys c ->
  process_from w c = Ret (Ok p) -> env_entries c = es1 ++ (k, Some (text_of l)) :: es2 ->
  (forall o, In (k, o) es2 -> ~ binds w (k, o)) -> ~ (k = "NOTIFY_SOCKET" /\ pc_type c = Notify) ->
  proper l -> In (Braced a n b) l -> ~ In n nine -> (forall o, In (n, o) es1 -> ~ binds w (n, o)) ->
  sees (p_env p) k (text_of l).
Proof. exact (variable_too_early w c p k l a n b es1 es2). Qed.
Print Assumptions C78_too_early.

(** Arguments see the environment of the program, wherever a variable is defined. *)
Theorem C78_argument w c p i l : with_tera w -> any_order w -> process_from w c = Ret (Ok p) ->
  nth_error (pc_args c) i = Some (text_of l) -> proper l ->
  exists m v, presents (p_env p) m /\ nth_error (p_args p) (S i) = Some v /\ meant as_is m l v.
Proof. exact (argument_template w c p i l). Qed.
Print Assumptions C78_argument.

(** Text without templates, and templates that are not closed, stay as they are. *)
Theorem C78_raw_variable w c p k raw es1 es2 : with_tera w -> any_order w -> plain_keys c ->
  process_from w c = Ret (Ok p) -> env_entries c = es1 ++ (k, Some raw) :: es2 ->
  (forall o, In (k, o) es2 -> ~ binds w (k, o)) -> ~ (k = "NOTIFY_SOCKET" /\ pc_type c = Notify) ->
  ordinary raw \/ unclosed raw -> sees (p_env p) k raw.
Proof. exact (raw_variable w c p k raw es1 es2). Qed.
Print Assumptions C78_raw_variable.

Theorem C78_raw_argument w c p i raw : with_tera w -> any_order w -> process_from w c = Ret (Ok p) ->
  nth_error (pc_args c) i = Some raw -> ordinary raw \/ unclosed raw -> nth_error (p_args p) (S i) = Some raw.
Proof. exact (raw_argument w c p i raw). Qed.
Print Assumptions C78_raw_argument.

(** The templates of the manual (doc/README.md:35-36, 69-71), one that comes too early, and
    the one of system-tests/usecases/arg-templates that is not closed. *)
Definition manual_program : proc_config :=
  program ["{{ NAME }}_arg"; "{{ LATER }}"; "{{ ENV_VAR } plus appendix"]
    [[("EARLY", Some "{{ LATER }}!")]; [("NAME", Some "my_program")]; [("PROGRAM_USER", Some "{{ NAME }}_user")]; [("LATER", Some "1")]].
Definition manual_parts : list part := [Var "NAME"; Words "_user"].
Example C78_example : exists p, process_from tera_world manual_program = Ret (Ok p) /\ plain_keys manual_program /\
  proper manual_parts /\ text_of manual_parts = "{{ NAME }}_user" /\ ~ page "PROGRAM_USER" /\
  sees (p_env p) "PROGRAM_USER" "my_program_user" /\ sees (p_env p) "EARLY" "{{ LATER }}!" /\
  p_args p = ["/bin/program"; "my_program_arg"; "1"; "{{ ENV_VAR } plus appendix"].
Proof.
  destruct (built manual_program) as [p|] eqn:E; [|vm_compute in E; discriminate].
  exists p. pose proof (built_from _ _ E) as B.
  assert (P : plain_keys manual_program).
  { intros k (o & H). cbn in H. unfold no_eq.
    repeat (destruct H as [H|H]; [inversion H; subst; cbn; intuition discriminate|]). destruct H. }
  assert (N : forall n r, (forall b, In b (letters r) -> (65 <=? byte b)%Z && (byte b <=? 90)%Z = true) ->
    is_letter n -> proper_name (String n r)).
  { intros n r H Hn. exists n, r. split; [reflexivity|]. split; [exact Hn|]. intros b Hb. left. left.
    specialize (H b Hb). apply andb_true_iff in H as (H1 & H2). apply Z.leb_le in H1, H2. lia. }
  assert (Nn : proper_name "NAME").
  { apply N; [|left; vm_compute; split; discriminate]. intros b Hb. cbn in Hb.
    repeat (destruct Hb as [<-|Hb]; [reflexivity|]). destruct Hb. }
  assert (Nl : proper_name "LATER").
  { apply N; [|left; vm_compute; split; discriminate]. intros b Hb. cbn in Hb.
    repeat (destruct Hb as [<-|Hb]; [reflexivity|]). destruct Hb. }
  assert (Bl : blanks " ") by (intros a [<-|[]]; cbn; tauto).
  assert (Pm : proper manual_parts).
  { split; [intros x Hx|intros xa x xb Hx]; cbn in Hx; repeat (destruct Hx as [Hx|Hx]; [try discriminate; first [injection Hx as <- <- <-|injection Hx as <-]|]); try destruct Hx.
    - cbn. intuition discriminate.
    - split; [exact Bl|split; [exact Nn|exact Bl]]. }
  assert (Pl : proper [Var "LATER"; Words "!"]).
  { split; [intros x Hx|intros xa x xb Hx]; cbn in Hx; repeat (destruct Hx as [Hx|Hx]; [try discriminate; first [injection Hx as <- <- <-|injection Hx as <-]|]); try destruct Hx.
    - cbn. intuition discriminate.
    - split; [exact Bl|split; [exact Nl|exact Bl]]. }
  assert (G : forall k, ~ In "."%char (letters k) -> ~ page k).
  { intros k H (n & suf & -> & I). apply H. rewrite letters_app. apply in_or_app. right.
    repeat (destruct I as [<-|I]; [cbn; tauto|]). destruct I. }
  assert (Gp : ~ page "PROGRAM_USER") by (apply G; cbn; intuition discriminate).
  split; [exact B|]. split; [exact P|]. split; [exact Pm|]. split; [reflexivity|]. split; [exact Gp|].
  split; [|split].
  - destruct (C78_variable_partial tera_world manual_program p "PROGRAM_USER" manual_parts
      [("EARLY", Some "{{ LATER }}!"); ("NAME", Some "my_program")] [("LATER", Some "1")] tera_world_tera tera_world_order P B eq_refl)
      as (u & m & v & U & A & M & V); [| |exact Gp|exact Pm|].
    + cbn. intros o [[=]|[]].
    + intros ([=] & _).
    + destruct (env_after_last _ _ _ _ A "NAME" [("EARLY", Some "{{ LATER }}!")] (Some "my_program") [] eq_refl Logic.I) as (m1 & _ & x & R & X).
      * intros o [].
      * assert (x = "my_program") as -> by (vm_compute in R; destruct R as [R|(R & _)]; congruence).
        assert (v = "my_program_user") as ->; [|exact V].
        assert (F : filled as_is m manual_parts "my_program_user").
        { apply (fi_variable as_is m " " "NAME" " " "my_program" "my_program" [Words "_user"] "_user" X eq_refl). apply (fi_words as_is m "_user" [] ""). constructor. }
        destruct M as [M|(M & _)]; [eapply filled_fun; eassumption|destruct (M _ F)].
  - apply (C78_too_early tera_world manual_program p "EARLY" [Var "LATER"; Words "!"] " " "LATER" " " []
      [("NAME", Some "my_program"); ("PROGRAM_USER", Some "{{ NAME }}_user"); ("LATER", Some "1")]
      tera_world_tera tera_world_order P B eq_refl).
    + cbn. intros o [[=]|[[=]|[[=]|[]]]].
    + intros ([=] & _).
    + exact Pl.
    + left. reflexivity.
    + cbn. intuition discriminate.
    + intros o [].
  - vm_compute in E. injection E as <-. reflexivity.
Qed.
Example C78_raw_example : ordinary "{ VAR } 1%" /\ unclosed "x {{ VAR".
Proof.
  split.
  - intros a b c Hc E.
    repeat (destruct a as [|? a]; cbn in E;
      [first [discriminate E|injection E; intros; subst; cbn in Hc; intuition discriminate]
      |first [discriminate E|injection E as <- E]]).
  - exists "x ", " VAR". split; [reflexivity|]. split; [cbn; intuition discriminate|].
    intros c Hc. cbn in Hc. repeat (destruct Hc as [<-|Hc]; [repeat split; discriminate|]). destruct Hc.
Qed.

Example C78_page_example :
  page "index.html" /\ proper [Braced "" "ROOT" (String "009" ""); Words "<"] /\ escaped "/a&b" "&#x2F;a&amp;b" /\
  exists p, process_from tera_world (program [] [[("ROOT", Some "/a&b")];
      [("index.html", Some (text_of [Braced "" "ROOT" (String "009" ""); Words "<"]))]]) = Ret (Ok p) /\
    In "index.html=&#x2F;a&amp;b<" (p_env p).
Proof.
  split; [exists "index", ".html"; split; [reflexivity|cbn; tauto]|]. split.
  { split; [intros x [[=]|[[= <-]|[]]]; cbn; intuition discriminate|]. intros x n y [[= <- <- <-]|[[=]|[]]]. split; [intros a []|]. split.
    - exists "R"%char, "OOT". split; [reflexivity|]. split; [left; vm_compute; split; discriminate|].
      intros b Hb. left. left. cbn in Hb. repeat (destruct Hb as [<-|Hb]; [vm_compute; split; discriminate|]). destruct Hb.
    - intros a [<-|[]]. cbn. tauto. }
  split.
  { apply (es_entity _ "&#x2F;"); [cbn; tauto|]. apply es_other; [cbn; intuition congruence|]. apply (es_entity _ "&amp;"); [cbn; tauto|].
    apply es_other; [cbn; intuition congruence|]. constructor. }
  eexists. split; [vm_compute; reflexivity|]. cbn. tauto.
Qed.

(** The value of a variable whose name ends like the name of a page is escaped. *)
Theorem C78_page_refuted : exists w c p, with_tera w /\ any_order w /\ plain_keys c /\ process_from w c = Ret (Ok p) /\
  env_entries c = [("ROOT", Some "/srv"); ("index.html", Some (text_of [Var "ROOT"; Words "/x"]))] /\
  In "index.html=&#x2F;srv/x" (p_env p) /\ ~ In "index.html=/srv/x" (p_env p).
Proof.
  destruct (built (program [] [[("ROOT", Some "/srv")]; [("index.html", Some "{{ ROOT }}/x")]])) as [p|] eqn:E; [|vm_compute in E; discriminate].
  exists tera_world, (program [] [[("ROOT", Some "/srv")]; [("index.html", Some "{{ ROOT }}/x")]]), p.
  split; [exact tera_world_tera|]. split; [exact tera_world_order|].
  split; [|split; [exact (built_from _ _ E)|split; [reflexivity|]]].
  - intros k (o & H). cbn in H. unfold no_eq.
    repeat (destruct H as [H|H]; [inversion H; subst; cbn; intuition discriminate|]). destruct H.
  - vm_compute in E. injection E as <-. cbn. intuition discriminate.
Qed.
Print Assumptions C78_page_refuted.

(** * C79: what is logged about templates *)
(** Building with messages builds the same program. *)
Theorem C79_same_program err w c : snd (build err w c) = process_from w c.
Proof. exact (build_builds err w c). Qed.
Print Assumptions C79_same_program.

(** The messages in their order: one group for each entry of the list, the warning about
    NOTIFY_SOCKET, one group for each argument. *)
Theorem C79_messages err w c said p : any_order w -> build err w c = (said, Ret (Ok p)) ->
  exists u m env_said socket_said arg_said,
    selects (w_uid w) (w_user w) (pc_uid c) (pc_user c) u /\ presents (p_env p) m /\
    said = concat env_said ++ socket_said ++ concat arg_said /\
    length env_said = length (env_entries c) /\ length arg_said = length (pc_args c) /\
    (forall es1 k o es2, env_entries c = es1 ++ (k, o) :: es2 ->
      exists m1 s, env_after w u es1 m1 /\ nth_error env_said (length es1) = Some s /\
      match o with
      | None => s = []
      | Some raw => about w k ("environment variable " +:+ k) ("Environment variable " +:+ k) m1 raw s
      end) /\
    (forall i raw, nth_error (pc_args c) i = Some raw ->
      exists s, nth_error arg_said i = Some s /\
      about w ("Argument " +:+ show_Z (Z.of_nat i)) ("argument " +:+ show_Z (Z.of_nat i)) ("Argument " +:+ show_Z (Z.of_nat i)) m raw s) /\
    if_given w c socket_said.
Proof. exact (messages err w c said p). Qed.
Print Assumptions C79_messages.

(** Nothing is logged exactly if nothing is suspicious. *)
Theorem C79_quiet err w c said p : any_order w -> build err w c = (said, Ret (Ok p)) ->
  exists u m, selects (w_uid w) (w_user w) (pc_uid c) (pc_user c) u /\ presents (p_env p) m /\
  (said = [] <->
    (forall es1 k raw es2 m1, env_entries c = es1 ++ (k, Some raw) :: es2 -> env_after w u es1 m1 -> ~ suspicious w k m1 raw) /\
    (forall i raw, nth_error (pc_args c) i = Some raw -> ~ suspicious w ("Argument " +:+ show_Z (Z.of_nat i)) m raw) /\
    ~ (pc_type c = Notify /\ exists o, In ("NOTIFY_SOCKET", o) (env_entries c) /\ binds w ("NOTIFY_SOCKET", o))).
Proof. exact (quiet err w c said p). Qed.
Print Assumptions C79_quiet.

(** system-tests/usecases/arg-template-warn-template *)
Definition warning_program : proc_config :=
  program ["-o"; "program.yml"; "{{ ENV_VAR }} plus appendix"; "{{ ENV_VAR } plus appendix"; "{ ENV_VAR } plus appendix"]
    [[("ENV_VAR", Some "hello world")]; [("VAR_1", Some "{{ ENV_VAR } plus appendix")]; [("VAR_2", Some "{ ENV_VAR } plus appendix")]].
Example C79_example : exists p, build (fun _ => "error") tera_world warning_program = (
  twice ("Templating of environment variable VAR_1 failed. cinit will use raw value" +:+ String "010" "error") ++
  twice "Environment variable VAR_2 looks like a tera template but has value '{ ENV_VAR } plus appendix' after instantiation. cinit will use raw value" ++
  twice ("Templating of argument 3 failed. cinit will use raw value" +:+ String "010" "error") ++
  twice "Argument 4 looks like a tera template but has value '{ ENV_VAR } plus appendix' after instantiation. cinit will use raw value", Ret (Ok p)).
Proof. eexists. vm_compute. reflexivity. Qed.

(** The message says that the raw value is used; the value after instantiation is. *)
Theorem C79_raw_value_refuted : exists w c p said k raw v, with_tera w /\ any_order w /\ plain_keys c /\
  build (fun _ => "") w c = (said, Ret (Ok p)) /\ env_entries c = [("OPEN", Some "{"); (k, Some raw)] /\
  In (LWarn, "Environment variable " +:+ k +:+ " looks like a tera template but has value '" +:+ v +:+ "' after instantiation. cinit will use raw value") said /\
  v <> raw /\ sees (p_env p) k v.
Proof.
  set (c := program [] [[("OPEN", Some "{")]; [("X", Some "{{ OPEN }}x")]]).
  destruct (built c) as [p|] eqn:E; [|vm_compute in E; discriminate].
  assert (P : plain_keys c).
  { intros k (o & H). cbn in H. unfold no_eq.
    repeat (destruct H as [H|H]; [inversion H; subst; cbn; intuition discriminate|]). destruct H. }
  exists tera_world, c, p, (fst (build (fun _ => "") tera_world c)), "X", "{{ OPEN }}x", "{x".
  split; [exact tera_world_tera|]. split; [exact tera_world_order|]. split; [exact P|].
  split; [rewrite <- (built_from _ _ E), <- (C79_same_program (fun _ => "")); apply surjective_pairing|].
  split; [reflexivity|]. split; [vm_compute; tauto|]. split; [discriminate|].
  destruct (entry_value tera_world c p "X" "{{ OPEN }}x" [("OPEN", Some "{")] [] tera_world_order P (built_from _ _ E) eq_refl)
    as (u & m & v & U & A & R & V); [intros o []|intros ([=] & _)|].
  destruct (env_after_last _ _ _ _ A "OPEN" [] (Some "{") [] eq_refl Logic.I) as (m1 & _ & x & R1 & X); [intros o []|].
  assert (x = "{") as -> by (vm_compute in R1; destruct R1 as [R1|(R1 & _)]; congruence).
  assert (T : tera "X" m "{{ OPEN }}x" = Some (Some "{x")).
  { change (tera "X" m "{{ OPEN }}x") with (Some (fill "X" m [Value "OPEN"; Text "x"])). cbn [fill]. rewrite X. reflexivity. }
  pose proof (tera_world_tera _ _ _ _ T) as W.
  assert (v = "{x") as -> by (destruct R as [R|(R & _)]; congruence). exact V.
Qed.
Print Assumptions C79_raw_value_refuted.

(** * C80: the default environment *)
(** Four of the nine variables are forwarded.  Missing from the full claim: the other five,
    see [C80_home_refuted] and [C80_replaced]; keys with "=". *)
Theorem C80_forwarded_partial w c p : any_order w -> plain_keys c -> process_from w c = Ret (Ok p) ->
  forall k, In k ["LANG"; "LANGUAGE"; "PATH"; "TERM"] -> (forall o, In (k, o) (env_entries c) -> ~ binds w (k, o)) ->
  sees (p_env p) k (match w_env w k with Some v => v | None => "" end).
Proof. exact (forwarded w c p). Qed.
Print Assumptions C80_forwarded_partial.

Theorem C80_replaced w c p : any_order w -> plain_keys c -> process_from w c = Ret (Ok p) ->
  exists u, selects (w_uid w) (w_user w) (pc_uid c) (pc_user c) u /\
  forall k v, In (k, v) [("HOME", utf8_lossy (u_dir u)); ("PWD", utf8_lossy (u_dir u)); ("USER", u_name u); ("LOGNAME", u_name u); ("SHELL", "/bin/sh")] ->
  (forall o, In (k, o) (env_entries c) -> ~ binds w (k, o)) -> sees (p_env p) k v.
Proof. exact (replaced w c p). Qed.
Print Assumptions C80_replaced.

(** HOME is not forwarded, and PWD is not the directory the program is run in. *)
Theorem C80_home_refuted : exists w c p, any_order w /\ process_from w c = Ret (Ok p) /\ env_entries c = [] /\
  w_env w "HOME" = Some "/container" /\ In "HOME=/root" (p_env p) /\ ~ In "HOME=/container" (p_env p).
Proof.
  destruct (built (program [] [])) as [p|] eqn:E; [|vm_compute in E; discriminate].
  exists tera_world, (program [] []), p. split; [exact tera_world_order|]. split; [exact (built_from _ _ E)|].
  split; [reflexivity|]. split; [reflexivity|]. vm_compute in E. injection E as <-. cbn. intuition discriminate.
Qed.
Print Assumptions C80_home_refuted.

Theorem C80_pwd_refuted : exists w c p, any_order w /\ process_from w c = Ret (Ok p) /\ env_entries c = [] /\
  p_workdir p = "/work" /\ In "PWD=/root" (p_env p) /\ ~ In "PWD=/work" (p_env p).
Proof.
  destruct (built (program [] [])) as [p|] eqn:E; [|vm_compute in E; discriminate].
  exists tera_world, (program [] []), p. split; [exact tera_world_order|]. split; [exact (built_from _ _ E)|].
  split; [reflexivity|]. vm_compute in E. injection E as <-. cbn. intuition discriminate.
Qed.
Print Assumptions C80_pwd_refuted.

Example C80_example : exists p, process_from tera_world (program [] []) = Ret (Ok p) /\ plain_keys (program [] []) /\
  sees (p_env p) "PATH" "/bin" /\ sees (p_env p) "TERM" "" /\ sees (p_env p) "HOME" "/root".
Proof.
  destruct (built (program [] [])) as [p|] eqn:E; [|vm_compute in E; discriminate].
  exists p. pose proof (built_from _ _ E) as B. assert (P : plain_keys (program [] [])) by (intros k (o & [])).
  split; [exact B|]. split; [exact P|].
  pose proof (C80_forwarded_partial _ _ _ tera_world_order P B) as F.
  split; [apply (F "PATH"); [cbn; tauto|intros o []]|]. split; [apply (F "TERM"); [cbn; tauto|intros o []]|].
  destruct (C80_replaced _ _ _ tera_world_order P B) as (u & U & R). apply R; [|intros o []].
  assert (u = {| u_uid := 0; u_name := "root"; u_dir := "/root" |}) as -> by (inversion U; subst; vm_compute in *; congruence).
  left. reflexivity.
Qed.
