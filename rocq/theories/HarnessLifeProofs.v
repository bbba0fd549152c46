(** Proofs about the life of the harness. *)
From Coq Require Import Ascii String ZArith List Bool Lia.
From Verif Require Import Base RStr SpecStr SpecText RStrProofs NotifyProofs HarnessLifeModel SpecHarnessLife.
Import ListNotations.
Local Open Scope string_scope.
Local Open Scope list_scope.
Local Open Scope Z_scope.

Lemma parse_u64_spec s n : parse_u64 s = Some n <-> u64_text s n.
Proof.
  unfold parse_u64, u64_text.
  assert (C : forall d, (if nonempty d then match digits d 0 with Some m => if m <=? U64_MAX then Some m else None | None => None end else None) = Some n <->
    numeral d /\ n = value d /\ n <= U64_MAX).
  { intros d. assert (B : forall m, (nonempty d = true /\ digits d 0 = Some m /\ (m <=? U64_MAX) = true) <-> (numeral d /\ m = value d /\ m <= U64_MAX)).
    { intros m. unfold numeral. rewrite digits_numeral, nonempty_spec, Z.leb_le. tauto. }
    split.
    - intros H. destruct (nonempty d) eqn:E1; [|discriminate]. destruct (digits d 0) as [m|] eqn:E2; [|discriminate]. destruct (m <=? U64_MAX) eqn:E3; [|discriminate].
      inversion H; subst. apply B. auto.
    - intros H. apply B in H. destruct H as (E1 & E2 & E3). rewrite E1, E2, E3. reflexivity. }
  assert (Cases : (exists r, s = String "+" r) \/ (forall r, s <> String "+" r)).
  { destruct s as [|a s]; [right; discriminate|]. destruct (Ascii.eqb_spec a "+") as [->|N]; [eauto|]. right. intros r E. inversion E. auto. }
  destruct Cases as [(r & ->)|N].
  - cbv zeta. rewrite C. unfold U64_MAX. split.
    + intros (X & Y & Z). exists r. auto.
    + intros (d & X & [<-|[= ->]] & Y & Z); [exfalso; eapply numeral_no_plus; eauto|auto].
  - assert (E : match s with String "+" r => r | _ => s end = s).
    { destruct s as [|a s]; [reflexivity|]. destruct a as [[] [] [] [] [] [] [] []]; try reflexivity. exfalso. eapply N. reflexivity. }
    cbv zeta. rewrite E, C. unfold U64_MAX. split.
    + intros (X & Y & Z). exists s. auto.
    + intros (d & X & [<-|E'] & Y & Z); [auto|exfalso; eapply N; eauto].
Qed.

Lemma held_back_spec l s : held_back l s = true <-> waits l s.
Proof.
  unfold held_back, waits. rewrite andb_true_iff, negb_true_iff, orb_false_iff, !Z.eqb_neq. tauto.
Qed.
Lemma deadly_spec l s : held_back l s = false -> (deadly l s = true <-> kills l s).
Proof.
  intros H. assert (N : ~ waits l s) by (rewrite <- held_back_spec, H; discriminate).
  unfold kills, deadly. rewrite orb_true_iff, negb_true_iff, !orb_false_iff, !Z.eqb_eq, Z.eqb_neq.
  assert (E : harmless s = false <-> ~ In s [17; 18; 19; 20; 21; 22; 23; 28]).
  { unfold harmless. rewrite <- not_true_iff_false, existsb_exists. split; intros A B; apply A.
    - exists s. split; [exact B|apply Z.eqb_refl].
    - destruct B as (x & I & Q). apply Z.eqb_eq in Q. subst. exact I. }
  rewrite E. tauto.
Qed.
Lemma deliver_killed l sigs : forall w s, deliver l w sigs = inl s -> In s sigs /\ kills l s.
Proof.
  induction sigs as [|x sigs IH]; intros w s D; [discriminate|]. cbn [deliver] in D.
  destruct (held_back l x) eqn:H; [destruct (IH _ _ D); split; [right|]; assumption|].
  destruct (deadly l x) eqn:Y; [|destruct (IH _ _ D); split; [right|]; assumption].
  injection D as <-. split; [left; reflexivity|]. apply deadly_spec; assumption.
Qed.
Lemma deliver_waiting l sigs : forall w w', deliver l w sigs = inr w' -> forall x, In x w' -> In x w \/ In x sigs /\ waits l x.
Proof.
  induction sigs as [|y sigs IH]; intros w w' D x I; [injection D as <-; left; exact I|]. cbn [deliver] in D.
  destruct (held_back l y) eqn:H.
  - destruct (IH _ _ D x I) as [J|[J W]]; [|right; split; [right|]; assumption]. apply in_app_iff in J. destruct J as [J|[<-|[]]]; [left; exact J|].
    right. split; [left; reflexivity|apply held_back_spec; exact H].
  - destruct (deadly l y); [discriminate|]. destruct (IH _ _ D x I) as [J|[J W]]; [left; exact J|]. right. split; [right|]; assumption.
Qed.

Section Life.
  Context (o : options) (l : luck).
  (** The signals that wait have arrived. *)
  Let fine (w : list Z) : Prop := forall x, In x w -> waits l x /\ exists t, In x (l_arrives l t).
  Let struck (e : ending) : Prop := exists s t, e = Killed s /\ In s (l_arrives l t) /\ kills l s.

  Lemma deliver_fine w t w' : fine w -> deliver l w (l_arrives l t) = inr w' -> fine w'.
  Proof using. intros F D x I. destruct (deliver_waiting l _ _ _ D x I) as [J|[J W]]; [apply F; exact J|]. split; [exact W|]. exists t. exact J. Qed.
  Lemma deliver_struck w t s : deliver l w (l_arrives l t) = inl s -> struck (Killed s).
  Proof using. intros D. destruct (deliver_killed l _ _ _ D) as [I K]. exists s, t. auto. Qed.

  Lemma finish_ends t w : fst (finish o l t w) = [] /\ (struck (snd (finish o l t w)) \/ exists c, snd (finish o l t w) = Ends c /\ own_code o c).
  Proof using.
    unfold finish. destruct (deliver l w (l_arrives l t)) as [s|w'] eqn:D; cbn.
    - split; [reflexivity|]. left. exact (deliver_struck _ _ _ D).
    - split; [reflexivity|]. right. destruct (parse_i32 (o_code o)) as [c|] eqn:P.
      + exists (c mod 256). split; [reflexivity|]. left. exists c. split; [apply parse_i32_spec; exact P|reflexivity].
      + exists 101. split; [reflexivity|]. right. split; [|reflexivity]. intros x X. apply parse_i32_spec in X. congruence.
  Qed.

  Lemma run_seconds n : forall t w, fine w -> exists k, (k <= n)%nat /\ fst (run o l t w (seconds n)) = repeat Second k /\
    (struck (snd (run o l t w (seconds n))) \/
     (exists c, snd (run o l t w (seconds n)) = Ends c /\ own_code o c) /\ (k = n \/ exists s t, waits l s /\ In s (l_arrives l t))).
  Proof using.
    induction n as [|n IH]; intros t w F.
    - exists 0%nat. split; [lia|]. cbn [seconds run]. destruct (finish_ends t w) as [E [A|A]]; rewrite E; split; [reflexivity|left; exact A|reflexivity|right; auto].
    - cbn [seconds run]. destruct (deliver l w (l_arrives l t)) as [s|w1] eqn:D1; [exists 0%nat; split; [lia|]; split; [reflexivity|]; left; exact (deliver_struck _ _ _ D1)|].
      pose proof (deliver_fine _ _ _ F D1) as F1. cbn [andthen fst snd].
      destruct (deliver l w1 (l_arrives l (S t))) as [s|w2] eqn:D2; [exists 1%nat; split; [lia|]; split; [reflexivity|]; left; exact (deliver_struck _ _ _ D2)|].
      pose proof (deliver_fine _ _ _ F1 D2) as F2. destruct w2 as [|x w2]; cbn [is_nil].
      + destruct (IH (S (S t)) [] F2) as (k & L & E & A). exists (S k). split; [lia|]. rewrite E. split; [reflexivity|].
        destruct A as [A|[A B]]; [left; exact A|right]. split; [exact A|]. destruct B as [->|B]; [left; reflexivity|right; exact B].
      + exists 1%nat. split; [lia|]. destruct (finish_ends (S (S t)) (x :: w2)) as [E A]. rewrite E. split; [reflexivity|].
        destruct A as [A|A]; [left; exact A|right]. split; [exact A|]. right. destruct (F2 x (or_introl eq_refl)) as (W & t' & I). eauto.
  Qed.

  Lemma run_panic t w : fst (run o l t w [JPanic]) = [] /\ (struck (snd (run o l t w [JPanic])) \/ snd (run o l t w [JPanic]) = Ends 101).
  Proof using.
    cbn [run]. destruct (deliver l w (l_arrives l t)) as [s|w1] eqn:D1; cbn; [|auto]. split; [reflexivity|]. left. exact (deliver_struck _ _ _ D1).
  Qed.

  Lemma run_writes rest pieces : forall t w, fine w ->
    (exists written more, pieces = map Ret written ++ more /\ fst (run o l t w (map JWrite pieces ++ rest)) = map Writes written /\
       (struck (snd (run o l t w (map JWrite pieces ++ rest))) \/ snd (run o l t w (map JWrite pieces ++ rest)) = Ends 101 /\ exists why, In (Panic why) pieces)) \/
    (exists written t' w', pieces = map Ret written /\ fine w' /\
       run o l t w (map JWrite pieces ++ rest) = (map Writes written ++ fst (run o l t' w' rest), snd (run o l t' w' rest))).
  Proof using.
    induction pieces as [|p pieces IH]; intros t w F.
    - right. exists [], t, w. split; [reflexivity|]. split; [exact F|]. cbn. destruct (run o l t w rest). reflexivity.
    - cbn [map app run]. destruct (deliver l w (l_arrives l t)) as [s|w1] eqn:D1.
      { left. exists [], (p :: pieces). split; [reflexivity|]. split; [reflexivity|]. left. exact (deliver_struck _ _ _ D1). }
      pose proof (deliver_fine _ _ _ F D1) as F1. destruct p as [text|why].
      + destruct (IH (S t) w1 F1) as [(wr & more & E & A & B)|(wr & t' & w' & E & F' & A)].
        * left. exists (text :: wr), more. rewrite E at 1. split; [reflexivity|]. cbn [andthen fst snd]. rewrite A. split; [reflexivity|].
          destruct B as [B|[B (y & I)]]; [left; exact B|right]. split; [exact B|]. exists y. right. exact I.
        * right. exists (text :: wr), t', w'. rewrite E at 1. split; [reflexivity|]. split; [exact F'|]. unfold andthen. rewrite A. reflexivity.
      + left. exists [], (Panic why :: pieces). split; [reflexivity|]. split; [reflexivity|]. right. split; [reflexivity|]. exists why. left. reflexivity.
  Qed.

  Lemma run_sends rest ms : forall t w, fine w ->
    (exists sent more, ms = sent ++ more /\ fst (run o l t w (map (fun x => JSend (fst x) (snd x)) ms ++ rest)) = map Sends (map snd sent) /\
       (forall x, In x sent -> (3 <= fst x)%nat) /\
       (struck (snd (run o l t w (map (fun x => JSend (fst x) (snd x)) ms ++ rest))) \/
        snd (run o l t w (map (fun x => JSend (fst x) (snd x)) ms ++ rest)) = Ends 101 /\ exists x, In x ms /\ (fst x < 4)%nat)) \/
    (exists t' w', fine w' /\ (forall x, In x ms -> (4 <= fst x)%nat) /\ run o l t w (map (fun x => JSend (fst x) (snd x)) ms ++ rest) =
       (map Sends (map snd ms) ++ fst (run o l t' w' rest), snd (run o l t' w' rest))).
  Proof using.
    induction ms as [|[k text] ms IH]; intros t w F.
    - right. exists t, w. split; [exact F|]. split; [intros x []|]. cbn. destruct (run o l t w rest). reflexivity.
    - cbn [map app run fst snd]. destruct (deliver l w (l_arrives l t)) as [s|w1] eqn:D1.
      { left. exists [], ((k, text) :: ms). split; [reflexivity|]. split; [reflexivity|]. split; [intros x []|]. left. exact (deliver_struck _ _ _ D1). }
      pose proof (deliver_fine _ _ _ F D1) as F1. destruct (Nat.ltb_spec k 3) as [L3|G3].
      { left. exists [], ((k, text) :: ms). split; [reflexivity|]. split; [reflexivity|]. split; [intros x []|]. right. split; [reflexivity|].
        exists (k, text). split; [left; reflexivity|cbn; lia]. }
      destruct (Nat.ltb_spec k 4) as [L4|G4].
      { left. exists [(k, text)], ms. split; [reflexivity|]. split; [reflexivity|]. split; [intros x [<-|[]]; exact G3|]. right. split; [reflexivity|].
        exists (k, text). split; [left; reflexivity|cbn; lia]. }
      destruct (IH (S t) w1 F1) as [(sent & more & E & A & G & B)|(t' & w' & F' & G & A)].
      + left. exists ((k, text) :: sent), more. rewrite E at 1. split; [reflexivity|]. cbn [andthen fst snd]. rewrite A. split; [reflexivity|].
        split; [intros x [<-|I]; [exact G3|exact (G x I)]|].
        destruct B as [B|[B (y & I & J)]]; [left; exact B|right]. split; [exact B|]. exists y. split; [right|]; assumption.
      + right. exists t', w'. split; [exact F'|]. split; [intros x [<-|I]; [exact G4|exact (G x I)]|]. unfold andthen. rewrite A. reflexivity.
  Qed.

  Let calls : list (nat * string) :=
    (if o_ready o then [(l_socket l 0, "READY=1")] else []) ++
    match o_status o with Some text => [(l_socket l (if o_ready o then 1 else 0)%nat, ("STATUS=" ++ text)%string)] | None => [] end.
  Lemma calls_messages : map snd calls = messages o.
  Proof using. unfold calls, messages. destruct (o_ready o), (o_status o); reflexivity. Qed.
  Lemma calls_socket i x : nth_error calls i = Some x -> fst x = l_socket l i.
  Proof using.
    unfold calls. destruct (o_ready o), (o_status o); cbn; destruct i as [|[|[|i]]]; cbn; intros [= <-]; reflexivity.
  Qed.
  Lemma calls_nth i : (i < length (messages o))%nat -> exists x, nth_error calls i = Some x.
  Proof using.
    rewrite <- calls_messages, map_length. intros L. destruct (nth_error calls i) as [x|] eqn:E; [eauto|]. apply nth_error_None in E. lia.
  Qed.
  Lemma calls_fault x : In x calls -> (fst x < 4)%nat -> exists i, (i < length (messages o))%nat /\ (l_socket l i < 4)%nat.
  Proof using.
    intros I L. apply In_nth_error in I. destruct I as (i & E). exists i. rewrite <- (calls_socket i x E). split; [|exact L].
    rewrite <- calls_messages, map_length. apply nth_error_Some. congruence.
  Qed.
  Let tail : list job := match parse_u64 (o_sleep o) with Some n => if l_signalfd l then seconds (Z.to_nat n) else [JPanic] | None => [JPanic] end.
  Lemma plan_is : plan o l = map (fun x => JSend (fst x) (snd x)) calls ++ JOpen :: map JWrite (l_pieces l) ++ tail.
  Proof using. unfold plan, calls. destruct (o_ready o), (o_status o); reflexivity. Qed.
  Lemma run_tail t w : fine w -> exists k, fst (run o l t w tail) = repeat Second k /\
    (k = 0%nat \/ l_signalfd l = true /\ exists n, u64_text (o_sleep o) n /\ Z.of_nat k <= n) /\
    (struck (snd (run o l t w tail)) \/ snd (run o l t w tail) = Ends 101 /\ ((forall n, ~ u64_text (o_sleep o) n) \/ l_signalfd l = false) \/
     exists c n, snd (run o l t w tail) = Ends c /\ own_code o c /\ l_signalfd l = true /\ u64_text (o_sleep o) n /\ Z.of_nat k <= n /\
       (Z.of_nat k = n \/ exists s t, waits l s /\ In s (l_arrives l t))).
  Proof using.
    intros F. unfold tail. destruct (parse_u64 (o_sleep o)) as [n|] eqn:P.
    - pose proof P as U. apply parse_u64_spec in U. assert (N : 0 <= n) by (destruct U as (d & X & _ & -> & _); apply value_nonneg).
      destruct (l_signalfd l) eqn:G.
      + destruct (run_seconds (Z.to_nat n) t w F) as (k & L & E & A). exists k. split; [exact E|]. split; [right; split; [reflexivity|]; exists n; split; [exact U|lia]|].
        destruct A as [A|[(c & A & B) C]]; [left; exact A|]. right. right. exists c, n. split; [exact A|]. split; [exact B|]. split; [reflexivity|]. split; [exact U|].
        split; [lia|]. destruct C as [->|C]; [left; lia|right; exact C].
      + destruct (run_panic t w) as [E A]. exists 0%nat. split; [exact E|]. split; [left; reflexivity|]. destruct A as [A|A]; [left; exact A|right; left].
        split; [exact A|]. right. reflexivity.
    - destruct (run_panic t w) as [E A]. exists 0%nat. split; [exact E|]. split; [left; reflexivity|]. destruct A as [A|A]; [left; exact A|right; left].
      split; [exact A|]. left. intros n X. apply parse_u64_spec in X. congruence.
  Qed.

  Lemma harness_course acts e : harness o l = (acts, e) -> course o l acts /\
    (struck e \/ e = Ends 101 /\ fault o l \/
     exists c n k, e = Ends c /\ own_code o c /\ u64_text (o_sleep o) n /\ whole o l k acts /\ ~ fault o l /\ Z.of_nat k <= n /\
       (Z.of_nat k = n \/ exists s t, waits l s /\ In s (l_arrives l t))).
  Proof using.
    unfold harness. rewrite plan_is. intros H. assert (F0 : fine []) by (intros x []).
    set (after := map JWrite (l_pieces l) ++ tail) in *.
    destruct (run_sends (JOpen :: after) calls 0%nat [] F0) as [(sent & more & E & A & G & B)|(t1 & w1 & F1 & G & A)].
    { rewrite H in A, B. cbn [fst snd] in A, B. subst acts. split.
      - apply (c_sending o l (map snd sent) (map snd more)); [rewrite <- calls_messages, E; apply map_app|]. rewrite map_length. intros i L.
        destruct (nth_error sent i) as [x|] eqn:X; [|apply nth_error_None in X; lia].
        rewrite <- (calls_socket i x) by (rewrite E, nth_error_app1 by exact L; exact X). apply G. exact (nth_error_In _ _ X).
      - destruct B as [B|[B (x & I & J)]]; [left; exact B|right; left]. split; [exact B|left; exact (calls_fault x I J)]. }
    assert (Q : forall i, (i < length (messages o))%nat -> (4 <= l_socket l i)%nat).
    { intros i L. destruct (calls_nth i L) as (x & X). rewrite <- (calls_socket i x X). apply G. exact (nth_error_In _ _ X). }
    assert (Q3 : forall i, (i < length (messages o))%nat -> (3 <= l_socket l i)%nat) by (intros i L; specialize (Q i L); lia).
    rewrite H, calls_messages in A. clear H G. cbn [run] in A. destruct (deliver l w1 (l_arrives l t1)) as [s|w2] eqn:D.
    { injection A as -> ->. rewrite app_nil_r. split; [apply (c_sending o l (messages o) []); [symmetry; apply app_nil_r|exact Q3]|]. left. exact (deliver_struck _ _ _ D). }
    pose proof (deliver_fine _ _ _ F1 D) as F2. destruct (l_create l) eqn:C.
    2:{ injection A as -> ->. rewrite app_nil_r. split; [apply (c_sending o l (messages o) []); [symmetry; apply app_nil_r|exact Q3]|]. right. left. split; [reflexivity|].
        right. left. exact C. }
    cbn [andthen fst snd] in A. unfold after in A. destruct (run_writes tail (l_pieces l) (S t1) w2 F2) as [(wr & more & E & X & Y)|(wr & t3 & w3 & E & F3 & X)].
    { rewrite X in A. injection A as -> E2. rewrite E2. split; [exact (c_writing o l wr more Q C E)|].
      destruct Y as [Y|[Y P]]; [left; exact Y|right; left]. split; [exact Y|]. do 2 right. left. exact P. }
    rewrite X in A. cbn [fst snd] in A. injection A as -> E2. rewrite E2. clear E2. destruct (run_tail t3 w3 F3) as (k & Ek & Bk & R). rewrite Ek.
    assert (W : whole o l k (map Sends (messages o) ++ Opens (o_output o) :: map Writes wr ++ repeat Second k)) by (exists wr; auto).
    split.
    - destruct Bk as [->|(B & n & U & L)]; [|exact (c_waiting o l _ n k Q C B U L W)]. cbn [repeat]. rewrite app_nil_r.
      apply (c_writing o l wr []); [exact Q|exact C|]. rewrite app_nil_r. exact E.
    - destruct R as [R|[[R1 R2]|(c & n & R1 & R2 & R3 & R4 & R5)]]; [left; exact R|right; left; split; [exact R1|do 3 right; exact R2]|].
      right. right. exists c, n, k. split; [exact R1|]. split; [exact R2|]. split; [exact R4|]. split; [exact W|]. split; [|exact R5].
      intros [(i & L & Y)|[Y|[(why & Y)|[Y|Y]]]].
      + specialize (Q i L). lia.
      + congruence.
      + rewrite E in Y. apply in_map_iff in Y. destruct Y as (z & Z & _). discriminate.
      + exact (Y n R4).
      + congruence.
  Qed.
End Life.
