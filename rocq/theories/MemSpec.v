(** Vocabulary of C65. *)
From Coq Require Import ZArith Bool String.
From stdpp Require Import base list option strings.
From Verif Require Import Base SyncModel Attr AttrSpec Mem.
Local Open Scope nat_scope.

(** The attributes of options, one after the other. *)
Definition all_attrs (opts : list mopt) : list kv := concat (map (fun o => match o with WithAttributes l | WithAttributeSet l => l end) opts).
(** Two lists of attributes belong to the same series. *)
Definition same_series (l l' : list kv) : Prop := canon (new_set l) = canon (new_set l').
(** The action begins a call of this instrument with these attributes. *)
Definition begins (s : mem) (a : mact) (inst : nat) (l : list kv) : Prop :=
  match a with
  | MKeyValues i b => i = inst /\ m_heap s !! b = Some l
  | MOptions i opts => i = inst /\ op_config opts = l
  | _ => False
  end.
(** The call was given this array and has not returned. *)
Definition running_on (s : mem) (a : nat) : Prop := exists c x, m_calls s !! c = Some x /\ c_arr x = a /\ forall r, c_place x <> Returned r.
(** [b] is [a], or [a] with its key, its value or both shortened to [n] bytes. *)
Definition value_shortened (n : nat) (v w : value) : Prop :=
  match v, w with
  | VString s, VString t => shortened n s t
  | VStrings s, VStrings t => Forall2 (shortened n) s t
  | _, _ => w = v
  end.
Definition shortened_attr (n : nat) (a b : kv) : Prop :=
  (b.1 = a.1 \/ shortened n a.1 b.1) /\ (b.2 = a.2 \/ value_shortened n a.2 b.2).
(** A schedule in which only goroutines inside calls run. *)
Definition only_calls (l : list mact) : Prop := forall a, a ∈ l -> exists c over, a = MGo c over.
(** The number of steps of call [c] in a schedule. *)
Definition steps_of (c : nat) (l : list mact) : nat := length (List.filter (fun a => match a with MGo c' _ => Nat.eqb c c' | _ => false end) l).
