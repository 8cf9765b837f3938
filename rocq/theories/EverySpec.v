(** What is expected of limited diagnostics, in terms of what can be seen. *)
From Coq Require Import ZArith Bool.
From stdpp Require Import base list option.
From Verif Require Import Every.
Local Open Scope Z_scope.

(** [x] comes before [y]. *)
Definition before {A} (l : list A) (x y : A) : Prop := exists l1 l2 l3, l = l1 ++ x :: l2 ++ y :: l3.
(** The times at which calls of a call site were admitted, and those at which its diagnostics were emitted. *)
Definition admitted (k : key) (l : list event) : list Z := omap (fun e => match e with EAdmit _ k' _ t => if decide (k' = k) then Some t else None | _ => None end) l.
Definition emitted (k : key) (l : list event) : list Z := omap (fun e => match e with EInvoke _ (Some (k', _)) t => if decide (k' = k) then Some t else None | _ => None end) l.
(** The admissions the emitted diagnostics come from. *)
Definition emitted_for (k : key) (l : list event) : list Z := omap (fun e => match e with EInvoke _ (Some (k', m)) _ => if decide (k' = k) then Some m else None | _ => None end) l.
(** All calls of a call site have the same period. *)
Definition period (k : key) (d : Z) (l : list event) : Prop := forall th d', ECall th (Some k) d' ∈ l -> d' = d.
(** An admitted call emits its diagnostic within [D]. *)
Definition prompt (k : key) (D : Z) (l : list event) : Prop := forall th m t, EInvoke th (Some (k, m)) t ∈ l -> t - m <= D.
(** The number of times in a window. *)
Definition within (a b : Z) (l : list Z) : nat := length (filter (fun t => a <= t <= b) l).
(** What one call shows, from the call to its end: a negative period panics; a caller that cannot be found is not limited; otherwise the
    call is decided for its own call site and period, and emits its diagnostic once if and only if it was admitted. *)
Inductive turn (th : nat) : list event -> Prop :=
  | turn_panic k d : d < 0 -> turn th [ECall th k d; EPanic th]
  | turn_unknown d t : 0 <= d -> turn th [ECall th None d; EInvoke th None t]
  | turn_admitted k d m t : 0 <= d -> turn th [ECall th (Some k) d; EAdmit th k d m; EInvoke th (Some (k, m)) t]
  | turn_refused k d t : 0 <= d -> turn th [ECall th (Some k) d; ERefuse th k d t].
Definition of_goroutine (e : event) : nat := match e with ECall th _ _ | EPanic th | EAdmit th _ _ _ | ERefuse th _ _ _ | EInvoke th _ _ => th end.
(** What a goroutine shows. *)
Definition own (th : nat) (l : list event) : list event := filter (fun e => of_goroutine e = th) l.
