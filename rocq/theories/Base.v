(** Shared vocabulary of the model.

    Rust panics (unwrap on None, expect on Err, panic!, index out of bounds,
    division by zero, checked arithmetic in chrono, ...) are the explicit value
    [Panic]; Rust's [Result] is [result].  Nothing in this file models code of
    /repo; it only fixes how Rust's control flow is represented. *)
From Coq Require Import String ZArith List Lia.
Import ListNotations.

Inductive outcome (A : Type) : Type :=
| Ret (a : A)
| Panic (msg : string).
Arguments Ret {A} a.
Arguments Panic {A} msg.

Definition obind {A B} (x : outcome A) (f : A -> outcome B) : outcome B :=
  match x with Ret a => f a | Panic m => Panic m end.

Definition omap {A B} (f : A -> B) (x : outcome A) : outcome B :=
  match x with Ret a => Ret (f a) | Panic m => Panic m end.

Notation "'let!' x ':=' e 'in' k" := (obind e (fun x => k))
  (at level 200, x pattern, e at level 200, k at level 200, right associativity).

Inductive result (A E : Type) : Type :=
| Ok (a : A)
| Err (e : E).
Arguments Ok {A E} a.
Arguments Err {A E} e.

Definition is_ret {A} (x : outcome A) : bool :=
  match x with Ret _ => true | Panic _ => false end.

Definition is_ok {A E} (x : result A E) : bool :=
  match x with Ok _ => true | Err _ => false end.

Definition is_some {A} (x : option A) : bool :=
  match x with Some _ => true | None => false end.

Definition is_nil {A} (x : list A) : bool :=
  match x with [] => true | _ => false end.

(** Rust's [Option::or]. *)
Definition opt_or {A} (x y : option A) : option A :=
  match x with Some _ => x | None => y end.

(** * Loops
    A Rust loop whose body either continues with a new state ([inl]) or leaves
    the loop with a result ([inr]).  [nloop n] runs the body at most [n] times;
    [ploop p] is the same with a binary bound, so that large bounds (the end of
    chrono's calendar) stay executable. *)
Fixpoint nloop {S R} (n : nat) (body : S -> S + R) (s : S) : S + R :=
  match n with
  | O => inl s
  | Datatypes.S n' => match body s with inl s' => nloop n' body s' | inr r => inr r end
  end.

Fixpoint ploop {S R} (p : positive) (body : S -> S + R) (s : S) : S + R :=
  match p with
  | xH => body s
  | xO q => match ploop q body s with inl s' => ploop q body s' | inr r => inr r end
  | xI q => match body s with
            | inl s1 => match ploop q body s1 with
                        | inl s2 => ploop q body s2
                        | inr r => inr r
                        end
            | inr r => inr r
            end
  end.

Lemma nloop_add {S R} (body : S -> S + R) a b s :
  nloop (a + b) body s =
  match nloop a body s with inl s' => nloop b body s' | inr r => inr r end.
Proof.
  revert s; induction a as [|a IH]; intros s; cbn [nloop Nat.add]; [reflexivity|].
  destruct (body s) as [s'|r]; [apply IH|reflexivity].
Qed.

Lemma ploop_nloop {S R} (body : S -> S + R) p s :
  ploop p body s = nloop (Pos.to_nat p) body s.
Proof.
  revert s; induction p as [q IH|q IH|]; intros s; cbn [ploop].
  - rewrite Pos2Nat.inj_xI. cbn [nloop].
    destruct (body s) as [s1|r]; [|reflexivity].
    replace (2 * Pos.to_nat q) with (Pos.to_nat q + Pos.to_nat q) by lia.
    rewrite nloop_add, IH. destruct (nloop _ _ s1) as [s2|r]; [apply IH|reflexivity].
  - rewrite Pos2Nat.inj_xO.
    replace (2 * Pos.to_nat q) with (Pos.to_nat q + Pos.to_nat q) by lia.
    rewrite nloop_add, IH. destruct (nloop _ _ s) as [s2|r]; [apply IH|reflexivity].
  - change (Pos.to_nat 1) with 1. cbn. destruct (body s); reflexivity.
Qed.
