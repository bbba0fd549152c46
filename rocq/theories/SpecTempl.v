(** What a template stands for, after the manual (doc/README.md:88-89, 172-176), and what
    should be logged about it. *)
From stdpp Require Import gmap strings.
From Coq Require Import Ascii ZArith List Bool.
From Verif Require Import Base RStr ConfigModel ProcessModel EnvModel LogModel SpecEnv.
Import ListNotations.
Local Open Scope string_scope.
Local Open Scope list_scope.

(** ** Templates as the manual writes them: words, and variables in double braces *)
Inductive part := Words (s : string) | Braced (before name after : string).
(** As the manual writes it, with one space on either side. *)
Notation Var n := (Braced " " n " ").

Fixpoint text_of (l : list part) : string :=
  match l with
  | [] => ""
  | Words s :: r => s +:+ text_of r
  | Braced a n b :: r => "{{" +:+ a +:+ n +:+ b +:+ "}}" +:+ text_of r
  end.

Definition letters (s : string) : list ascii := String.list_ascii_of_string s.

(** A variable's name: capital letters, underscores and, except in front, digits. *)
Definition is_letter (a : ascii) : Prop := (65 <= byte a <= 90)%Z \/ a = "_"%char.
Definition is_digit (a : ascii) : Prop := (48 <= byte a <= 57)%Z.
Definition proper_name (n : string) : Prop :=
  exists a r, n = String a r /\ is_letter a /\ forall b, In b (letters r) -> is_letter b \/ is_digit b.

(** Spaces, tabulators, line feeds and carriage returns. *)
Definition blanks (s : string) : Prop := forall a, In a (letters s) -> In (byte a) [32; 9; 10; 13]%Z.

Definition proper (l : list part) : Prop :=
  (forall s, In (Words s) l -> ~ In "{"%char (letters s)) /\
  (forall a n b, In (Braced a n b) l -> blanks a /\ proper_name n /\ blanks b).

(** The text with each variable replaced by its value, as it is [shown]; there is none if
    a variable is not defined. *)
Inductive filled (shown : string -> string -> Prop) (env : gmap string string) : list part -> string -> Prop :=
| fi_nil : filled shown env [] ""
| fi_words s l v : filled shown env l v -> filled shown env (Words s :: l) (s +:+ v)
| fi_variable a n b x y l v : env !! n = Some x -> shown x y -> filled shown env l v -> filled shown env (Braced a n b :: l) (y +:+ v).
Definition as_is (x y : string) : Prop := y = x.

(** The value a variable or an argument gets from a template. *)
Definition meant (shown : string -> string -> Prop) (env : gmap string string) (l : list part) (v : string) : Prop :=
  filled shown env l v \/ ((forall v', ~ filled shown env l v') /\ v = text_of l).

(** Text in which nothing is special. *)
Definition ordinary (t : string) : Prop :=
  forall a b c, In c ["{"%char; "%"%char; "#"%char] -> t <> a +:+ "{" +:+ String c b.

(** Braces that are opened and never closed. *)
Definition unclosed (t : string) : Prop :=
  exists a b, t = a +:+ "{{" +:+ b /\ ~ In "{"%char (letters a) /\
    (forall c, In c (letters b) -> c <> "}"%char /\ c <> """"%char /\ c <> "'"%char /\ c <> "`"%char).

(** Names of pages, see [C78_page_refuted]. *)
Definition page (k : string) : Prop :=
  exists n suffix, k = n +:+ suffix /\ In suffix [".html"; ".htm"; ".xml"].
(** There, six characters are written as entities. *)
Definition entities : list (ascii * string) :=
  [("&"%char, "&amp;"); ("<"%char, "&lt;"); (">"%char, "&gt;"); (""""%char, "&quot;"); ("'"%char, "&#x27;"); ("/"%char, "&#x2F;")].
Inductive escaped : string -> string -> Prop :=
| es_nil : escaped "" ""
| es_entity c e s t : In (c, e) entities -> escaped s t -> escaped (String c s) (e +:+ t)
| es_other c s t : (forall e, ~ In (c, e) entities) -> escaped s t -> escaped (String c s) (String c t).

(** ** Messages *)
Definition braces (v : string) : Prop := In "{"%char (letters v) \/ In "}"%char (letters v).

(** A template there is something to say about: it fails, or braces are left. *)
Definition suspicious (w : world) (name : string) (env : gmap string string) (raw : string) : Prop :=
  w_render w name env raw = None \/ exists v, w_render w name env raw = Some v /\ braces v.

(** A message at both levels. *)
Definition warned (said : list (level * string)) (text : string) : Prop := said = [(LWarn, text); (LTrace, text)].

(** What is said about one template: [what] and [What] name it in the messages. *)
Inductive about (w : world) (name what What : string) (env : gmap string string) (raw : string) : list (level * string) -> Prop :=
| ab_fails said e : w_render w name env raw = None ->
    warned said ("Templating of " +:+ what +:+ " failed. cinit will use raw value" +:+ String "010" e) ->
    about w name what What env raw said
| ab_braces said v : w_render w name env raw = Some v -> braces v ->
    warned said (What +:+ " looks like a tera template but has value '" +:+ v +:+ "' after instantiation. cinit will use raw value") ->
    about w name what What env raw said
| ab_silent v : w_render w name env raw = Some v -> ~ braces v ->
    about w name what What env raw [].

(** The warning about NOTIFY_SOCKET. *)
Definition if_given (w : world) (c : proc_config) (said : list (level * string)) : Prop :=
  let given := pc_type c = Notify /\ exists o, In ("NOTIFY_SOCKET", o) (env_entries c) /\ binds w ("NOTIFY_SOCKET", o) in
  (given /\ said = [(LWarn, "program '" +:+ pc_name c +:+ "' must not have NOTIFY_SOCKET because it's type notify");
                    (LWarn, "The value from the configuration file is ignored")]) \/
  (~ given /\ said = []).
