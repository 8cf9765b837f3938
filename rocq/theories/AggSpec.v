(** Vocabulary for C12-C15.  Nothing in this file models Go code. *)
From Coq Require Import ZArith Bool.
From stdpp Require Import base list option.
From Verif Require Import Num Agg.
Local Open Scope Z_scope.

(** What each cell contains after a program: the measurements, each with the time (position in the program) of its Update.
    Update adds one, Move takes all of them away, Merge adds those of another cell, Copy replaces. *)
Definition flow {N} (t : nat) (o : op N) (c : nat -> list (nat * N)) : nat -> list (nat * N) :=
  match o with
  | Update i n => putc i (c i ++ [(t, n)]) c
  | Move a b => putc b (c a) (putc a [] c)
  | Merge a b => putc b (c b ++ c a) c
  | Copy a b => putc b (c a) c
  end.
Fixpoint flows {N} (t : nat) (os : list (op N)) (c : nat -> list (nat * N)) : nat -> list (nat * N) :=
  match os with
  | [] => c
  | o :: os => flows (S t) os (flow t o c)
  end.
Definition contents {N} (os : list (op N)) : nat -> list (nat * N) := flows 0 os (fun _ => []).
Definition numbers {N} (os : list (op N)) (i : nat) : list N := map snd (contents os i).

(** The mathematical sum. *)
Definition zsum (l : list Z) : Z := foldr Z.add 0 l.
(** [x] is a sum of the members of [l], added in some order and grouping, with some zeros. *)
Inductive adds {N : arith} : list N -> N -> Prop :=
  | adds_zero : adds [] zero
  | adds_one x : adds [x] x
  | adds_add l l' x y : adds l x -> adds l' y -> adds (l ++ l') (add x y)
  | adds_perm l l' x : l ≡ₚ l' -> adds l x -> adds l' x.
(** Least and greatest member. *)
Definition least {N : arith} (m : N) (l : list N) : Prop := m ∈ l /\ forall x, x ∈ l -> ltb x m = false.
Definition greatest {N : arith} (m : N) (l : list N) : Prop := m ∈ l /\ forall x, x ∈ l -> ltb m x = false.

(** The numbers a program measures are int64, or are not NaN. *)
Definition measures {N} (P : N -> Prop) (os : list (op N)) : Prop := forall i n, Update i n ∈ os -> P n.
(** At no time does a cell contain 2^64 measurements or more. *)
Definition few {N} (os : list (op N)) : Prop :=
  forall k i, Z.of_nat (length (contents (take k os) i)) < 18446744073709551616.
Definition is_update {N} (o : op N) : bool := match o with Update _ _ => true | _ => false end.
(** The measurement made last among [l]. *)
Definition latest {N} (n : N) (l : list (nat * N)) : Prop :=
  exists t, (t, n) ∈ l /\ forall t' n', (t', n') ∈ l -> (t' <= t)%nat.
