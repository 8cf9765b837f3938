(** Shared mathematical notions: commutative monoids and sums over lists.
    Nothing in this file models Go code; it is vocabulary for specifications. *)
From stdpp Require Import base list gmultiset.
From Coq Require Import ZArith.

(** A commutative monoid.  Aggregates are compared with Leibniz equality. *)
Record cmon := CMon {
  car :> Type;
  mu : car;                         (* the empty aggregate *)
  mop : car -> car -> car;          (* combining two aggregates *)
  mop_assoc : forall x y z, mop x (mop y z) = mop (mop x y) z;
  mop_comm : forall x y, mop x y = mop y x;
  mop_unit : forall x, mop mu x = x
}.
Arguments mu {_}.
Arguments mop {_} _ _.

(** The combination of [f x] over all members [x] of a list. *)
Fixpoint msum {M : cmon} {X : Type} (f : X -> M) (l : list X) : M :=
  match l with
  | [] => mu
  | x :: l => mop (f x) (msum f l)
  end.

(** [only b x] is [x] when [b] holds and empty otherwise. *)
Definition only {M : cmon} (b : bool) (x : M) : M := if b then x else mu.

(** The integers with addition. *)
Definition Zmon : cmon.
Proof.
  refine (CMon Z 0%Z Z.add _ _ _); intros; [apply Z.add_assoc | apply Z.add_comm | apply Z.add_0_l].
Defined.

(** Multisets of natural numbers with disjoint union. *)
Definition MSmon : cmon.
Proof.
  refine (CMon (gmultiset nat) ∅ (⊎) _ _ _); intros.
  - apply (assoc_L (⊎)).
  - apply (comm_L (⊎)).
  - apply (left_id_L ∅ (⊎)).
Defined.

(** Pairs of monoid elements. *)
Definition Pmon (M N : cmon) : cmon.
Proof.
  refine (CMon (M * N) (mu, mu) (fun p q => (mop p.1 q.1, mop p.2 q.2)) _ _ _).
  - intros [a b] [a' b'] [a'' b'']; cbn; f_equal; apply mop_assoc.
  - intros [a b] [a' b']; cbn; f_equal; apply mop_comm.
  - intros [a b]; cbn; f_equal; apply mop_unit.
Defined.
