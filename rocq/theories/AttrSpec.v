(** Vocabulary of the properties of attribute lists. *)
From Coq Require Import ZArith Bool String Ascii.
From stdpp Require Import base list option strings.
From Verif Require Import Base SyncModel Attr.
Local Open Scope Z_scope.

(** The last value passed for a key. *)
Definition value_of (l : list kv) (k : string) : option value :=
  fold_left (fun r (a : kv) => if String.eqb a.1 k then Some a.2 else r) l None.
(** In the order of the keys, each key once. *)
Fixpoint sorted (l : list kv) : Prop :=
  match l with
  | [] => True
  | a :: l => (forall b, b ∈ l -> str_lt a.1 b.1 = true) /\ sorted l
  end.
(** The bits of a NaN: any sign, all eleven bits of the exponent, and a fraction that is not zero. *)
Definition is_nan (b : Z) : Prop := exists sign fraction, b = sign * 2 ^ 63 + 2047 * 2 ^ 52 + fraction /\ 0 < fraction < 2 ^ 52.
(** No NaN in a slice of floats. *)
Definition no_nan (v : value) : Prop := match v with VFloats l => forall b, b ∈ l -> ~ is_nan b | _ => True end.

(** No key and no string value of the attribute is longer than [n] bytes. *)
Definition within (n : nat) (a : kv) : Prop :=
  (String.length a.1 <= n)%nat /\
  match a.2 with
  | VString s => (String.length s <= n)%nat
  | VStrings l => forall s, s ∈ l -> (String.length s <= n)%nat
  | _ => True
  end.
(** [s'] is the first [n] bytes of [s], or all of it if it is shorter. *)
Definition shortened (n : nat) (s s' : string) : Prop :=
  String.length s' = Nat.min n (String.length s) /\ exists r, s = (s' ++ r)%string.
