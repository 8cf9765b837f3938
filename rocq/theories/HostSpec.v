(** What the documentation of the host and cputime instrumentation (host/doc.go, cputime/doc.go) says is observed. *)
From Coq Require Import ZArith Bool String.
From stdpp Require Import base list option.
From Verif Require Import Num Attr View Host.
Local Open Scope Z_scope.
Local Open Scope string_scope.

Section spec.
Context (fl : floats).
(** A sample as it is seen: the instrument with its kind and unit, the attribute and the number. *)
Definition seen (o : sample fl) : string * kind * string * list kv * (F fl + Z) :=
  match o with SFloat _ i x a => (i_name i, i_kind i, i_unit i, a, inl x) | SInt _ i z a => (i_name i, i_kind i, i_unit i, a, inr z) end.
Definition stream (o : sample fl) : string * kind * string * list kv := (seen o).1.
Definition of_instrument (o : sample fl) : descriptor := match o with SFloat _ i _ _ | SInt _ i _ _ => i end.
Definition total (x : F fl) (l : list (F fl)) : F fl := fold_left (fplus fl) l x.
(** The streams and the numbers they show.  "other" is the sum of all other known states. *)
Inductive host_shows (t : cpu_stat fl) (v : mem_stat) (io : net_stat) : string * kind * string * list kv * (F fl + Z) -> Prop :=
  | hs_user : host_shows t v io ("system.cpu.time", AsyncCounter, "s", [("state", VString "user")], inl (c_user fl t))
  | hs_system : host_shows t v io ("system.cpu.time", AsyncCounter, "s", [("state", VString "system")], inl (c_system fl t))
  | hs_other : host_shows t v io ("system.cpu.time", AsyncCounter, "s", [("state", VString "other")], inl (total (c_nice fl t) [c_iowait fl t; c_irq fl t; c_softirq fl t; c_steal fl t; c_guest fl t; c_guestnice fl t]))
  | hs_idle : host_shows t v io ("system.cpu.time", AsyncCounter, "s", [("state", VString "idle")], inl (c_idle fl t))
  | hs_used : host_shows t v io ("system.memory.usage", AsyncUpDownCounter, "By", [("state", VString "used")], inr (v_used v))
  | hs_available : host_shows t v io ("system.memory.usage", AsyncUpDownCounter, "By", [("state", VString "available")], inr (v_available v))
  | hs_used_part : host_shows t v io ("system.memory.utilization", AsyncGauge, "", [("state", VString "used")], inl (fdiv fl (fuint fl (v_used v)) (fuint fl (v_total v))))
  | hs_available_part : host_shows t v io ("system.memory.utilization", AsyncGauge, "", [("state", VString "available")], inl (fdiv fl (fuint fl (v_available v)) (fuint fl (v_total v))))
  | hs_transmit : host_shows t v io ("system.network.io", AsyncCounter, "By", [("direction", VString "transmit")], inr (n_sent io))
  | hs_receive : host_shows t v io ("system.network.io", AsyncCounter, "By", [("direction", VString "receive")], inr (n_recv io)).
(** The process: times in nanoseconds. *)
Inductive process_shows (uptime user system : F fl) : string * kind * string * list kv * (F fl + Z) -> Prop :=
  | ps_uptime : process_shows uptime user system ("process.uptime", AsyncUpDownCounter, "s", [], inl uptime)
  | ps_user : process_shows uptime user system ("process.cpu.time", AsyncCounter, "s", [("state", VString "user")], inl user)
  | ps_system : process_shows uptime user system ("process.cpu.time", AsyncCounter, "s", [("state", VString "system")], inl system).
End spec.
