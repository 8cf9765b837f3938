(** Export of spans: conversion to OTLP and the export call.  T stands for /repo/lightstep/sdk/trace/exporters/otlp/otelcol. *)
From Coq Require Import ZArith Bool String.
From stdpp Require Import base list option strings.
From Verif Require Import Num Attr View Exp.
Local Open Scope Z_scope.

(** What the SDK gives (go.opentelemetry.io/otel/sdk/trace, not in /repo), as far as T/otlp.go reads it.  Identifiers are numbers; a trace
    state is its String(); counts are Go ints; codes.Code and SpanKind are their numbers; times are nanoseconds since 1970. *)
Record event := Event { ev_dropped : Z; ev_name : string; ev_time : Z; ev_attrs : list kv }.
Record link := Link { li_dropped : Z; li_span : Z; li_trace : Z; li_state : string; li_attrs : list kv }.
Record span := Span {
  sp_scope : scope; sp_res : list kv;
  sp_drop_attrs : Z; sp_drop_events : Z; sp_drop_links : Z;
  sp_kind : Z; sp_name : string; sp_parent : Z; sp_id : Z; sp_start : Z; sp_end : Z; sp_trace : Z; sp_state : string;
  sp_code : Z; sp_message : string;
  sp_attrs : list kv; sp_events : list event; sp_links : list link }.

(** ptrace of the collector (not in /repo). *)
Inductive pstatus := PSUnset | PSOk | PSError.
Inductive pkind := PKUnspecified | PKInternal | PKServer | PKClient | PKProducer | PKConsumer.
Record pevent := PEvent { pv_dropped : Z; pv_name : string; pv_time : Z; pv_attrs : list (string * pvalue) }.
Record plink := PLink { pl_dropped : Z; pl_span : Z; pl_trace : Z; pl_state : string; pl_attrs : list (string * pvalue) }.
Record pspan := PSpan {
  pp_drop_attrs : Z; pp_drop_events : Z; pp_drop_links : Z;
  pp_kind : pkind; pp_name : string; pp_parent : Z; pp_id : Z; pp_start : Z; pp_end : Z; pp_trace : Z; pp_state : string;
  pp_code : pstatus; pp_message : string;
  pp_attrs : list (string * pvalue); pp_events : list pevent; pp_links : list plink }.
Record pscopespans := PScopeSpans { pss_schema : string; pss_name : string; pss_version : string; pss_spans : list pspan }.
Record presspans := PResSpans { pr_resource : list (string * pvalue); pr_scopes : list pscopespans }.

(** uint32(int). *)
Definition uint32 (z : Z) : Z := z mod 2 ^ 32.
(** internal.CopyAttributes(dest, attribute.NewSet(attrs...)). *)
Definition copy_set (l : list kv) : option (list (string * pvalue)) := copy_attributes [] (new_set l).

(** copyEvents (T/otlp.go:27-36) and copyLinks (38-48).  None: CopyAttributes panics. *)
Definition copy_event (e : event) : option pevent :=
  a ← copy_set (ev_attrs e);
  Some (PEvent (uint32 (ev_dropped e)) (ev_name e) (uwrap (ev_time e)) a).
Definition copy_link (l : link) : option plink :=
  a ← copy_set (li_attrs l);
  Some (PLink (uint32 (li_dropped l)) (li_span l) (li_trace l) (li_state l) a).

(** translateSpanStatusCode (50-59): codes.Error is 1 and codes.Ok is 2. *)
Definition translate_code (c : Z) : pstatus := match c with 1 => PSError | 2 => PSOk | _ => PSUnset end.
(** translateSpanKind (61-76): trace.SpanKindInternal is 1, Server 2, Client 3, Producer 4, Consumer 5. *)
Definition translate_kind (k : Z) : pkind :=
  match k with 1 => PKInternal | 2 => PKServer | 3 => PKClient | 4 => PKProducer | 5 => PKConsumer | _ => PKUnspecified end.

(** The body of the loop of d2pd after the choice of the scope (101-118). *)
Definition copy_span (s : span) : option pspan :=
  a ← copy_set (sp_attrs s);
  es ← each copy_event (sp_events s);
  ls ← each copy_link (sp_links s);
  Some (PSpan (uint32 (sp_drop_attrs s)) (uint32 (sp_drop_events s)) (uint32 (sp_drop_links s))
              (translate_kind (sp_kind s)) (sp_name s) (sp_parent s) (sp_id s) (uwrap (sp_start s)) (uwrap (sp_end s)) (sp_trace s) (sp_state s)
              (translate_code (sp_code s)) (sp_message s) a es ls).
(** ss.Spans().AppendEmpty(): ss is the last scope appended.  None: ss is still the zero value, whose Spans() dereferences nil. *)
Fixpoint append_span (l : list pscopespans) (p : pspan) : option (list pscopespans) :=
  match l with
  | [] => None
  | [PScopeSpans u n v ps] => Some [PScopeSpans u n v (ps ++ [p])]
  | x :: r => r' ← append_span r p; Some (x :: r')
  end.
(** The loop (88-119): [cur] is curName. *)
Fixpoint copy_spans (cur : string) (out : list pscopespans) (l : list span) : option (list pscopespans) :=
  match l with
  | [] => Some out
  | s :: r =>
      let sc := sp_scope s in
      let '(cur', out') := if String.eqb (sc_name sc) cur then (cur, out)
                           else (sc_name sc, out ++ [PScopeSpans (sc_schema sc) (sc_name sc) (sc_version sc) []]) in
      match out' with
      | [] => None
      | _ => p ← copy_span s; out'' ← append_span out' p; copy_spans cur' out'' r
      end
  end.
(** d2pd (78-122). *)
Definition t_d2pd (rm : rmap) (l : list span) : option (rmap * list presspans) :=
  match l with
  | [] => Some (rm, [])
  | s :: _ =>
      '(rm', r) ← rm_get rm (sp_res s);
      ss ← copy_spans ""%string [] l;
      Some (rm', [PResSpans r ss])
  end.
(** SpanCount of the collector. *)
Definition span_count (x : list presspans) : nat :=
  foldr Nat.add 0%nat (map (fun r => foldr Nat.add 0%nat (map (fun s => length (pss_spans s)) (pr_scopes r))) x).
(** ExportSpans (T/client.go:84-119). *)
Definition export_spans (rm : rmap) (l : list span) (consume : list presspans -> option error)
  : option (rmap * list presspans * list telemetry * option error) :=
  '(rm', x) ← t_d2pd rm l;
  let e := consume x in
  Some (rm', x, [report "num_spans"%string (span_count x) e], e).
