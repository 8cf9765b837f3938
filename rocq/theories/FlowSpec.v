(** Words used to state what reaches the exporter of a periodic reader. *)
From Coq Require Import ZArith Bool String.
From stdpp Require Import base list option strings.
From Verif Require Import Per PerSpec Base SyncModel SyncSpec Flow.

Section spec.
Context {c : config} (rd : nat).
Implicit Types (f : flow c).

(** What a history asks of the instruments, and of the reader. *)
Definition calls_made (l : list (fact c)) : list (label c) :=
  flat_map (fun a => match a with FCall l => [l] | FProduce _ => [LCollect rd] | FReader _ => [] end) l.
Definition reader_steps (l : list (fact c)) : list pact := flat_map (fun a => match a with FReader a => [a] | _ => [] end) l.

(** Measurement [x] was made by a call that has returned, on a stream of the reader. *)
Definition measured_by_now f (x : nat) (u : upd c) : Prop :=
  s_log (f_sync f) !! x = Some u /\ s_thr (f_sync f) !! u_tid u = Some PDone /\ read_by c rd (u_view u).
(** Measurement [x] is in a point among the data of production [n], where [out] says which measurements each point is made of. *)
Definition in_data f (out : nat -> list nat) (n x : nat) : Prop :=
  exists i p, s_out (f_sync f) !! i = Some p /\ x ∈ out i /\ f_made f !! n = Some (p_tid p).
(** The data of production [n] were given to the exporter, which has returned: the whole of collection [s] of the reader (PerSpec). *)
Definition exported f (n : nat) (s : session) : Prop := exists ss rest, one_at_a_time (rd_log (f_reader f)) ss rest /\ s ∈ ss /\ s_n s = n.
(** The numbers of the productions given to the exporter, in order. *)
Definition exporter_calls f : list nat := omap (fun e => match e with ECall _ _ n => Some n | _ => None end) (rd_log (f_reader f)).
End spec.
