(** Numbers: int64 and float64, and the range test of measurements.  M stands for /repo/lightstep/sdk/metric. *)
From Coq Require Import ZArith Bool SpecFloat.
From stdpp Require Import base list option.
Local Open Scope Z_scope.

(** Two's complement of 64 bits: the int64 with the same residue modulo 2^64. *)
Definition wrap (x : Z) : Z := (x + 9223372036854775808) mod 18446744073709551616 - 9223372036854775808.
Definition int64 (x : Z) : Prop := -9223372036854775808 <= x < 9223372036854775808.
(** Unsigned 64 bits. *)
Definition uwrap (x : Z) : Z := x mod 18446744073709551616.

(** number.Any with number.Traits (M/number/traits.go:22-141): int64 or float64 with its arithmetic and comparisons.
    SetAtomic, GetAtomic, SwapAtomic and AddAtomic are atomic actions here; the Go code makes them so with sync/atomic
    (AddAtomic of float64 is a compare-and-swap loop, traits.go:119-129; Atom has the loop). *)
Record arith := Arith {
  num :> Type;
  zero : num;
  add : num -> num -> num;
  sub : num -> num -> num;
  ltb : num -> num -> bool;          (* x < y *)
  eqb : num -> num -> bool;          (* x == y *)
  is_nan : num -> bool;
  is_inf : num -> bool
}.
Arguments zero {_}.
Arguments add {_} _ _.
Arguments sub {_} _ _.
Arguments ltb {_} _ _.
Arguments eqb {_} _ _.
Arguments is_nan {_} _.
Arguments is_inf {_} _.

(** Int64Traits (traits.go:54-92). *)
Definition Int64 : arith :=
  Arith Z 0 (fun x y => wrap (x + y)) (fun x y => wrap (x - y)) Z.ltb Z.eqb (fun _ => false) (fun _ => false).
(** Float64Traits (traits.go:95-141), with the IEEE 754 binary64 operations of the standard library's SpecFloat. *)
Definition Float64 : arith :=
  Arith spec_float (S754_zero false) (SFadd 53 1024) (SFsub 53 1024) SFltb SFeqb
        (fun x => match x with S754_nan => true | _ => false end)
        (fun x => match x with S754_infinity _ => true | _ => false end).

(** sdkinstrument.Kind (M/sdkinstrument/kind.go:22-43). *)
Inductive kind := SyncCounter | SyncUpDownCounter | SyncGauge | SyncHistogram | AsyncCounter | AsyncUpDownCounter | AsyncGauge.
#[global] Instance kind_eq_dec : EqDecision kind. Proof. solve_decision. Defined.
(** Kind.Synchronous (kind.go:46-52). *)
Definition synchronous (k : kind) : bool :=
  match k with SyncCounter | SyncUpDownCounter | SyncGauge | SyncHistogram => true | _ => false end.

(** RangeTest (M/aggregator/aggregator.go:40-69).  The diagnostics are in Every. *)
Definition range_test {N : arith} (n : N) (k : kind) : bool :=
  if is_inf n then false
  else if is_nan n then false
  else match k with
       | SyncCounter | SyncHistogram => if ltb n zero then false else true
       | _ => true
       end.
