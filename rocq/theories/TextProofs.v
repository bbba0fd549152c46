(** UTF-8, lines and notification texts. *)
From Coq Require Import String Ascii ZArith List Bool Lia ZifyBool.
From Verif Require Import Base RStr NotifyModel SpecStr SpecText RStrProofs.
Import ListNotations.
Local Open Scope string_scope.
Local Open Scope Z_scope.

(** ** UTF-8 *)
Lemma byte_range a : 0 <= byte a <= 255.
Proof. unfold byte. assert (H := N_ascii_bounded a). lia. Qed.

Lemma bytes_cons a s : bytes (String a s) = byte a :: bytes s.
Proof. reflexivity. Qed.
Lemma bytes_app a b : bytes (a ++ b) = (bytes a ++ bytes b)%list.
Proof. unfold bytes. now rewrite chars_app, map_app. Qed.
Lemma bytes_stake n : forall s, bytes (stake n s) = firstn n (bytes s).
Proof. induction n as [|n IH]; intros [|a s]; try reflexivity. cbn [stake]. rewrite !bytes_cons, IH. reflexivity. Qed.
Lemma bytes_sdrop n : forall s, bytes (sdrop n s) = skipn n (bytes s).
Proof. induction n as [|n IH]; intros [|a s]; try reflexivity. cbn [sdrop]. rewrite !bytes_cons, IH. reflexivity. Qed.
Lemma bytes_range s : forall b, In b (bytes s) -> 0 <= b <= 255.
Proof. intros b H. unfold bytes in H. apply in_map_iff in H. destruct H as (a & <- & _). apply (byte_range a). Qed.
Lemma bytes_length s : length (bytes s) = String.length s.
Proof. induction s as [|a s IH]; cbn; [reflexivity|]. f_equal. exact IH. Qed.
Lemma bytes_inj a : forall b, bytes a = bytes b -> a = b.
Proof.
  induction a as [|x a IH]; intros [|y b]; cbn; intros H; try discriminate; [reflexivity|]. inversion H as [[H1 H2]].
  f_equal; [|apply IH; exact H2]. apply N2Z.inj in H1. rewrite <- (ascii_N_embedding x), <- (ascii_N_embedding y). now f_equal.
Qed.

Definition at_ (n : nat) (l : list Z) : Z := nth n l (-1).
Lemma byte_at_nth n : forall s, byte_at n s = at_ n (bytes s).
Proof. induction n as [|n IH]; intros [|a s]; cbn; try reflexivity. apply IH. Qed.

(** Decoding on lists of bytes. *)
Definition step_ (l : list Z) : nat * bool :=
  let b0 := at_ 0 l in let b1 := at_ 1 l in let b2 := at_ 2 l in let b3 := at_ 3 l in
  if within 0 127 b0 then (1%nat, true)
  else if within 194 223 b0 then (if is_cont b1 then (2%nat, true) else (1%nat, false))
  else if within 224 239 b0 then
    (if (if (b0 =? 224)%Z then within 160 191 b1 else if (b0 =? 237)%Z then within 128 159 b1 else is_cont b1)
     then (if is_cont b2 then (3%nat, true) else (2%nat, false)) else (1%nat, false))
  else if within 240 244 b0 then
    (if (if (b0 =? 240)%Z then within 144 191 b1 else if (b0 =? 244)%Z then within 128 143 b1 else is_cont b1)
     then (if is_cont b2 then (if is_cont b3 then (4%nat, true) else (3%nat, false)) else (2%nat, false)) else (1%nat, false))
  else (1%nat, false).
Lemma step_bytes s : utf8_step s = step_ (bytes s).
Proof. unfold utf8_step, step_. now rewrite !byte_at_nth. Qed.

Ltac bools :=
  repeat match goal with
  | H : within _ _ _ = true |- _ => unfold within in H; apply andb_true_iff in H; destruct H
  | H : within _ _ _ = false |- _ => unfold within in H; apply andb_false_iff in H
  | H : is_cont _ = true |- _ => unfold is_cont in H
  | H : is_cont _ = false |- _ => unfold is_cont in H
  | H : (_ <=? _) = true |- _ => apply Z.leb_le in H
  | H : (_ <=? _) = false |- _ => apply Z.leb_gt in H
  | H : (_ =? _) = true |- _ => apply Z.eqb_eq in H
  | H : (_ =? _) = false |- _ => apply Z.eqb_neq in H
  | H : (_ <? _) = true |- _ => apply Z.ltb_lt in H
  | H : (_ <? _) = false |- _ => apply Z.ltb_ge in H
  | H : _ \/ _ |- _ => destruct H
  end.

Lemma encode_1 b : 0 <= b <= 127 -> scalar b /\ encode b = [b].
Proof. intros H. split; [unfold scalar; lia|]. unfold encode. replace (b <? 128) with true by (symmetry; apply Z.ltb_lt; lia). reflexivity. Qed.
Lemma encode_2 a b : 194 <= a <= 223 -> 128 <= b <= 191 -> exists c, scalar c /\ encode c = [a; b].
Proof.
  intros Ha Hb. exists ((a - 192) * 64 + (b - 128)). split; [unfold scalar; lia|]. unfold encode.
  replace (_ <? 128) with false by (symmetry; apply Z.ltb_ge; lia). replace (_ <? 2048) with true by (symmetry; apply Z.ltb_lt; lia).
  f_equal; [|f_equal]; Z.to_euclidean_division_equations; lia.
Qed.
Lemma encode_3 a b d : 224 <= a <= 239 -> (a = 224 -> 160 <= b) -> (a = 237 -> b <= 159) -> 128 <= b <= 191 -> 128 <= d <= 191 ->
  exists c, scalar c /\ encode c = [a; b; d].
Proof.
  intros Ha H1 H2 Hb Hd. exists ((a - 224) * 4096 + (b - 128) * 64 + (d - 128)). split; [unfold scalar; lia|]. unfold encode.
  replace (_ <? 128) with false by (symmetry; apply Z.ltb_ge; lia). replace (_ <? 2048) with false by (symmetry; apply Z.ltb_ge; lia).
  replace (_ <? 65536) with true by (symmetry; apply Z.ltb_lt; lia).
  f_equal; [|f_equal; [|f_equal]]; Z.to_euclidean_division_equations; lia.
Qed.
Lemma encode_4 a b d f : 240 <= a <= 244 -> (a = 240 -> 144 <= b) -> (a = 244 -> b <= 143) -> 128 <= b <= 191 -> 128 <= d <= 191 -> 128 <= f <= 191 ->
  exists c, scalar c /\ encode c = [a; b; d; f].
Proof.
  intros Ha H1 H2 Hb Hd Hf. exists ((a - 240) * 262144 + (b - 128) * 4096 + (d - 128) * 64 + (f - 128)). split; [unfold scalar; lia|]. unfold encode.
  replace (_ <? 128) with false by (symmetry; apply Z.ltb_ge; lia). replace (_ <? 2048) with false by (symmetry; apply Z.ltb_ge; lia).
  replace (_ <? 65536) with false by (symmetry; apply Z.ltb_ge; lia).
  f_equal; [|f_equal; [|f_equal; [|f_equal]]]; Z.to_euclidean_division_equations; lia.
Qed.

(** What encodings look like. *)
Inductive shape : list Z -> Prop :=
| sh1 a : 0 <= a <= 127 -> shape [a]
| sh2 a b : 194 <= a <= 223 -> 128 <= b <= 191 -> shape [a; b]
| sh3 a b d : 224 <= a <= 239 -> (a = 224 -> 160 <= b) -> (a = 237 -> b <= 159) -> 128 <= b <= 191 -> 128 <= d <= 191 -> shape [a; b; d]
| sh4 a b d f : 240 <= a <= 244 -> (a = 240 -> 144 <= b) -> (a = 244 -> b <= 143) -> 128 <= b <= 191 -> 128 <= d <= 191 -> 128 <= f <= 191 -> shape [a; b; d; f].
Lemma encode_shape c : scalar c -> shape (encode c).
Proof.
  unfold scalar, encode. intros H.
  destruct (c <? 128) eqn:E1; bools; [constructor; lia|constructor; lia| |];
  (destruct (c <? 2048) eqn:E2; bools; [constructor; Z.to_euclidean_division_equations; lia|]);
  (destruct (c <? 65536) eqn:E3; bools; [constructor; Z.to_euclidean_division_equations; lia|]);
  try (constructor; Z.to_euclidean_division_equations; lia).
Qed.
Lemma shape_encode u : shape u -> exists c, scalar c /\ encode c = u.
Proof.
  intros []; [destruct (encode_1 a); eauto|apply encode_2; auto|apply encode_3; auto|apply encode_4; auto].
Qed.
Lemma starts_shape u : starts_char u <-> exists v, shape (u ++ v)%list.
Proof.
  split; [intros (c & v & H & E); exists v; rewrite <- E; apply encode_shape; auto|].
  intros (v & H). apply shape_encode in H. destruct H as (c & H & E). exists c, v. auto.
Qed.

Lemma step_spec l n ok : l <> [] -> (forall b, In b l -> 0 <= b <= 255) -> step_ l = (n, ok) ->
  (1 <= n <= length l)%nat /\
  (if ok then shape (firstn n l)
   else (forall u tail, shape u -> l <> (u ++ tail)%list) /\ (n = 1%nat \/ exists v, shape (firstn n l ++ v)%list) /\
        forall b tail, skipn n l = b :: tail -> ~ exists v, shape ((firstn n l ++ [b]) ++ v)%list).
Proof.
  intros NE R H.
  destruct l as [|b0 l]; [congruence|]. assert (R0 := R b0 (or_introl eq_refl)).
  assert (D : forall m, at_ m l = -1 /\ (length l <= m)%nat \/ 0 <= at_ m l <= 255 /\ (m < length l)%nat).
  { intros m. unfold at_. destruct (Nat.lt_ge_cases m (length l)) as [L|L].
    - right. split; [|auto]. apply R. right. apply nth_In. auto.
    - left. split; [|auto]. apply nth_overflow. auto. }
  unfold step_ in H. unfold at_ in H, D. cbn [nth] in H.
  assert (D1 := D 0%nat). assert (D2 := D 1%nat). assert (D3 := D 2%nat).
  assert (NS : forall u tail, shape u -> b0 :: l = (u ++ tail)%list ->
    (0 <= b0 <= 127) \/
    (194 <= b0 <= 223 /\ 128 <= nth 0 l (-1) <= 191) \/
    (224 <= b0 <= 239 /\ (b0 = 224 -> 160 <= nth 0 l (-1)) /\ (b0 = 237 -> nth 0 l (-1) <= 159) /\ 128 <= nth 0 l (-1) <= 191 /\ 128 <= nth 1 l (-1) <= 191) \/
    (240 <= b0 <= 244 /\ (b0 = 240 -> 144 <= nth 0 l (-1)) /\ (b0 = 244 -> nth 0 l (-1) <= 143) /\ 128 <= nth 0 l (-1) <= 191 /\ 128 <= nth 1 l (-1) <= 191 /\ 128 <= nth 2 l (-1) <= 191)).
  { intros u tail Hu E. destruct Hu; cbn in E; inversion E; subst; cbn; tauto. }
  clear R D NE. unfold is_cont, within in H.
  repeat match type of H with (if ?c then _ else _) = _ => let E := fresh "E" in destruct c eqn:E end; inversion H; subst; clear H;
  repeat match goal with H : (if ?c then _ else _) = _ |- _ => let E := fresh "E" in destruct c eqn:E end;
  (split; [cbn [length]; lia|]);
  try (clear NS; destruct l as [|b1 [|b2 [|b3 l]]]; cbn in *; first [exfalso; lia|constructor; lia]);
  (split; [intros u tail Hu E'; apply NS in E'; [lia|auto]|]; clear NS; split;
   [first [left; reflexivity
          |right; destruct l as [|b1 [|b2 l]]; cbn in *; first [exfalso; lia
             |exists [128]; constructor; lia|exists [128; 128]; constructor; lia]]
   |intros b tail E' [v Hs]; destruct l as [|b1 [|b2 [|b3 l]]]; cbn in *; try discriminate; inversion E'; subst; inversion Hs; subst; lia]).
Qed.

Lemma stake_sdrop n : forall s, stake n s ++ sdrop n s = s.
Proof. induction n as [|n IH]; intros [|a s]; cbn; try reflexivity. now rewrite IH. Qed.
Lemma sdrop_length n : forall s, String.length (sdrop n s) = (String.length s - n)%nat.
Proof. induction n as [|n IH]; intros [|a s]; cbn; try reflexivity. apply IH. Qed.

(** One decoding step and the rest. *)
Lemma chunks_unfold s : s <> "" -> exists n ok, utf8_step s = (n, ok) /\ (1 <= n <= String.length s)%nat /\
  utf8_chunks s = (stake n s, ok) :: utf8_chunks (sdrop n s) /\
  (if ok then shape (bytes (stake n s))
   else (forall u tail, shape u -> bytes s <> (u ++ tail)%list) /\ (n = 1%nat \/ exists v, shape (bytes (stake n s) ++ v)%list) /\
        forall b tail, bytes (sdrop n s) = b :: tail -> ~ exists v, shape ((bytes (stake n s) ++ [b]) ++ v)%list).
Proof.
  intros NE. destruct (utf8_step s) as [n ok] eqn:E. exists n, ok. split; [auto|].
  rewrite step_bytes in E. pose proof E as K. apply step_spec in K; [|destruct s; [congruence|discriminate]|apply bytes_range].
  rewrite bytes_length in K. destruct K as [K1 K2]. split; [auto|]. split.
  2:{ rewrite bytes_stake, bytes_sdrop. exact K2. }
  assert (G : forall f1 f2 s, (String.length s <= f1)%nat -> (String.length s <= f2)%nat -> utf8_chunks_fuel f1 s = utf8_chunks_fuel f2 s).
  { clear. induction f1 as [|f1 IH]; intros [|f2] [|a s] H1 H2; cbn in H1, H2; try lia; cbn [utf8_chunks_fuel]; try reflexivity.
    destruct (utf8_step (String a s)) as [n ok] eqn:E. f_equal.
    assert (K : (1 <= n)%nat). { rewrite step_bytes in E. apply step_spec in E; [lia|discriminate|apply bytes_range]. }
    apply IH; rewrite sdrop_length; cbn [String.length]; lia. }
  unfold utf8_chunks. destruct s as [|a s]; [congruence|]. cbn [String.length utf8_chunks_fuel].
  rewrite step_bytes, E. f_equal. apply G; rewrite sdrop_length; cbn [String.length]; cbn [String.length] in K1; lia.
Qed.

Lemma string_ind_len (P : string -> Prop) : (forall s, (forall t, (String.length t < String.length s)%nat -> P t) -> P s) -> forall s, P s.
Proof. intros H. assert (G : forall n s, (String.length s < n)%nat -> P s). { induction n; intros s L; [lia|]. apply H. intros t Lt. apply IHn. lia. } intros s. apply (G (S (String.length s))). lia. Qed.

Lemma shape_prefix u v a b : shape u -> shape v -> (u ++ a = v ++ b)%list -> u = v /\ a = b.
Proof. intros [] []; cbn; intros E; inversion E; subst; auto; lia. Qed.

Definition well_formed (l : list Z) : Prop := exists us, Forall shape us /\ l = concat us.
Lemma is_text_shapes s : is_text s <-> well_formed (bytes s).
Proof.
  split.
  - intros (cs & H & E). exists (map encode cs). split; [|auto]. apply Forall_forall. intros u K. apply in_map_iff in K. destruct K as (c & <- & K). apply encode_shape. auto.
  - intros (us & H & E). assert (K : exists cs, (forall c, In c cs -> scalar c) /\ map encode cs = us).
    { clear E. induction H as [|u us Hu _ IH]; [exists []; split; [intros ? []|auto]|]. destruct IH as (cs & I1 & I2).
      apply shape_encode in Hu. destruct Hu as (c & Hc & Ec). exists (c :: cs). cbn. split; [intros x [<-|X]; auto|congruence]. }
    destruct K as (cs & K1 & K2). exists cs. split; [auto|]. congruence.
Qed.

Theorem utf8_valid_spec s : utf8_valid s = true <-> is_text s.
Proof.
  rewrite is_text_shapes. induction s as [s IH] using string_ind_len.
  destruct s as [|a s]; [split; [exists []; auto|reflexivity]|].
  destruct (chunks_unfold (String a s)) as (n & ok & _ & L & C & K); [discriminate|].
  unfold utf8_valid. rewrite C. cbn [forallb snd]. fold (utf8_valid (sdrop n (String a s))). rewrite andb_true_iff, IH by (rewrite sdrop_length; lia).
  assert (B : bytes (String a s) = (bytes (stake n (String a s)) ++ bytes (sdrop n (String a s)))%list) by (rewrite <- bytes_app, stake_sdrop; reflexivity).
  split.
  - intros [-> (us & U1 & U2)]. exists (bytes (stake n (String a s)) :: us). split; [constructor; auto|]. cbn [concat]. rewrite <- U2. exact B.
  - intros (us & U1 & U2). destruct us as [|u us]; [discriminate|]. inversion U1 as [|? ? Hu Hus]; subst. cbn [concat] in U2.
    destruct ok.
    + split; [auto|]. exists us. split; [auto|]. rewrite B in U2. apply shape_prefix in U2; [tauto|auto|auto].
    + exfalso. destruct K as [K _]. eapply K; eauto.
Qed.

Lemma encode_shape_inv u : shape u -> exists c, scalar c /\ u = encode c.
Proof. intros H. apply shape_encode in H. destruct H as (c & ? & ?). eauto. Qed.

Theorem utf8_lossy_spec s : salvaged (bytes s) (bytes (utf8_lossy s)).
Proof.
  induction s as [s IH] using string_ind_len.
  destruct s as [|a s]; [constructor|].
  destruct (chunks_unfold (String a s)) as (n & ok & _ & L & C & K); [discriminate|].
  unfold utf8_lossy. rewrite C. cbn [map fst snd concat_all fold_right]. fold (concat_all (map (fun c : string * bool => if snd c then fst c else REPLACEMENT) (utf8_chunks (sdrop n (String a s))))).
  fold (utf8_lossy (sdrop n (String a s))). rewrite bytes_app.
  assert (B : bytes (String a s) = (bytes (stake n (String a s)) ++ bytes (sdrop n (String a s)))%list) by (rewrite <- bytes_app, stake_sdrop; reflexivity).
  rewrite B. assert (I : salvaged (bytes (sdrop n (String a s))) (bytes (utf8_lossy (sdrop n (String a s))))) by (apply IH; rewrite sdrop_length; lia).
  destruct ok.
  - apply encode_shape_inv in K. destruct K as (c & Hc & Ec). rewrite Ec. constructor; auto.
  - destruct K as (K1 & K2 & K3). change (bytes REPLACEMENT) with (encode 65533). apply sv_bad; auto.
    + rewrite bytes_stake. destruct n; [lia|]. discriminate.
    + intros c tail Hc. rewrite <- B. apply K1. apply encode_shape. auto.
    + destruct K2 as [->|K2]; [right; reflexivity|]. left. apply starts_shape. auto.
    + intros b tail E. rewrite starts_shape. eauto.
Qed.

Theorem utf8_lossy_text s : is_text s -> utf8_lossy s = s.
Proof.
  rewrite <- utf8_valid_spec. induction s as [s IH] using string_ind_len.
  destruct s as [|a s]; [reflexivity|].
  destruct (chunks_unfold (String a s)) as (n & ok & _ & L & C & K); [discriminate|].
  unfold utf8_valid, utf8_lossy. rewrite C. cbn [forallb snd map fst concat_all fold_right].
  rewrite andb_true_iff. intros [-> V]. rewrite <- (stake_sdrop n (String a s)) at 3. f_equal. apply IH; [rewrite sdrop_length; lia|exact V].
Qed.

Theorem utf8_lossy_valid s : is_text (utf8_lossy s).
Proof.
  rewrite is_text_shapes. induction s as [s IH] using string_ind_len.
  destruct s as [|a s]; [exists []; auto|].
  destruct (chunks_unfold (String a s)) as (n & ok & _ & L & C & K); [discriminate|].
  destruct (IH (sdrop n (String a s))) as (us & U1 & U2); [rewrite sdrop_length; lia|].
  unfold utf8_lossy. rewrite C. cbn [map fst snd concat_all fold_right]. rewrite bytes_app.
  exists ((bytes (if ok then stake n (String a s) else REPLACEMENT)) :: us). split.
  - constructor; [|auto]. destruct ok; [auto|]. cbn. constructor; lia.
  - cbn [concat]. rewrite <- U2. reflexivity.
Qed.

(** [salvaged] leaves no choice. *)
Lemma scalar_fffd : scalar 65533.
Proof. unfold scalar. lia. Qed.
Lemma encode_prefix c d a b : scalar c -> scalar d -> (encode c ++ a = encode d ++ b)%list -> encode c = encode d /\ a = b.
Proof. intros Hc Hd. apply shape_prefix; apply encode_shape; auto. Qed.
Lemma app_compare {A} (u v x y : list A) : (u ++ x = v ++ y)%list -> (u = v /\ x = y) \/ (exists b t, v = (u ++ b :: t)%list /\ x = b :: t ++ y)%list \/ (exists b t, u = (v ++ b :: t)%list /\ y = b :: t ++ x)%list.
Proof.
  revert v. induction u as [|a u IH]; intros v E; cbn in E.
  - destruct v as [|b v]; [left; auto|]. right. left. exists b, v. auto.
  - destruct v as [|b v]; cbn in E; [right; right; exists a, u; split; [reflexivity|symmetry; exact E]|]. inversion E; subst. destruct (IH v H1) as [[-> ->]|[(c & t & -> & ->)|(c & t & -> & ->)]]; [left; auto|right; left; exists c, t; auto|right; right; exists c, t; auto].
Qed.
Lemma salvaged_inv l o : salvaged l o -> (l = [] /\ o = []) \/
  (exists c rest out, l = (encode c ++ rest)%list /\ o = (encode c ++ out)%list /\ scalar c /\ salvaged rest out) \/
  (exists u rest out, l = (u ++ rest)%list /\ o = (encode 65533 ++ out)%list /\ u <> [] /\
    (forall c tail, scalar c -> (u ++ rest <> encode c ++ tail)%list) /\ (starts_char u \/ length u = 1%nat) /\
    (forall b tail, rest = b :: tail -> ~ starts_char (u ++ [b])%list) /\ salvaged rest out).
Proof. destruct 1; [left; auto|right; left; eauto 10|right; right; exists u, rest, out; auto 10]. Qed.
Lemma encode_cons c l : scalar c -> (encode c ++ l)%list <> [].
Proof. intros H. destruct (encode_shape c H); discriminate. Qed.
Theorem salvaged_unique l o1 : salvaged l o1 -> forall o2, salvaged l o2 -> o1 = o2.
Proof.
  assert (Pre : forall u b t, starts_char (u ++ b :: t)%list -> starts_char (u ++ [b])%list).
  { intros u b t (c & v & Hc & E). exists c, (t ++ v)%list. split; [auto|]. rewrite E, <- !app_assoc. reflexivity. }
  induction 1 as [|c rest out Hc _ IH|u rest out NE N1 N2 N3 _ IH]; intros o2 H2; apply salvaged_inv in H2;
    destruct H2 as [(E & E2)|[(c' & r' & o' & E & E2 & Hc' & H')|(u' & r' & o' & E & E2 & NE' & N1' & N2' & N3' & H')]]; subst o2.
  - auto.
  - exfalso. symmetry in E. eapply encode_cons; eauto.
  - exfalso. destruct u'; [congruence|discriminate].
  - exfalso. eapply encode_cons; eauto.
  - apply encode_prefix in E; auto. destruct E as [E1 E3]. subst. rewrite E1. f_equal. auto.
  - exfalso. eapply N1'; [exact Hc|symmetry; exact E].
  - exfalso. destruct u; [congruence|discriminate].
  - exfalso. eapply N1; [exact Hc'|exact E].
  - f_equal. apply IH. apply app_compare in E. destruct E as [[-> ->]|[(b & t & -> & ->)|(b & t & -> & ->)]]; [auto| |].
    + exfalso. eapply N3; [reflexivity|]. eapply Pre. destruct N2' as [N2'|N2']; [exact N2'|].
      exfalso. rewrite app_length in N2'. destruct u; [congruence|cbn in N2'; lia].
    + exfalso. eapply N3'; [reflexivity|]. eapply Pre. destruct N2 as [N2|N2]; [exact N2|].
      exfalso. rewrite app_length in N2. destruct u'; [congruence|cbn in N2; lia].
Qed.
