(** What the exported spans must say about the spans given. *)
From Coq Require Import ZArith Bool String.
From stdpp Require Import base list option strings.
From Verif Require Import Num Attr View Exp ExpSpec Trace.
Local Open Scope Z_scope.

(** [v] is the last value given for the key [k]. *)
Definition last_given (l : list kv) (k : string) (v : value) : Prop := exists l1 l2, l = l1 ++ (k, v) :: l2 /\ k ∉ map fst l2.
(** The attributes of a span, event or link: each key given once, with the last value given for it. *)
Definition last_say (l : list kv) (d : list (string * pvalue)) : Prop :=
  NoDup (map fst d) /\
  (forall k v, last_given l k v -> exists p, (k, p) ∈ d /\ says v p) /\
  (forall k p, (k, p) ∈ d -> exists v, last_given l k v /\ says v p).
(** Counts that fit 32 bits. *)
Definition a_count (z : Z) : Prop := 0 <= z < 2 ^ 32.

Definition event_says (e : event) (p : pevent) : Prop :=
  pv_name p = ev_name e /\ pv_time p = ev_time e /\ pv_dropped p = ev_dropped e /\ last_say (ev_attrs e) (pv_attrs p).
Definition link_says (l : link) (p : plink) : Prop :=
  pl_span p = li_span l /\ pl_trace p = li_trace l /\ pl_state p = li_state l /\ pl_dropped p = li_dropped l /\ last_say (li_attrs l) (pl_attrs p).
(** The status codes of OpenTelemetry: 0 unset, 1 error, 2 ok; and its span kinds. *)
Definition code_says (c : Z) (p : pstatus) : Prop := (c, p) ∈ [(0, PSUnset); (1, PSError); (2, PSOk)].
Definition kind_says (k : Z) (p : pkind) : Prop :=
  (k, p) ∈ [(0, PKUnspecified); (1, PKInternal); (2, PKServer); (3, PKClient); (4, PKProducer); (5, PKConsumer)].
Definition span_says (s : span) (p : pspan) : Prop :=
  pp_name p = sp_name s /\ pp_id p = sp_id s /\ pp_trace p = sp_trace s /\ pp_parent p = sp_parent s /\ pp_state p = sp_state s /\
  pp_start p = sp_start s /\ pp_end p = sp_end s /\ kind_says (sp_kind s) (pp_kind p) /\
  code_says (sp_code s) (pp_code p) /\ pp_message p = sp_message s /\
  pp_drop_attrs p = sp_drop_attrs s /\ pp_drop_events p = sp_drop_events s /\ pp_drop_links p = sp_drop_links s /\
  last_say (sp_attrs s) (pp_attrs p) /\ Forall2 event_says (sp_events s) (pp_events p) /\ Forall2 link_says (sp_links s) (pp_links p).

(** Spans an application can end: attributes have types, counts fit, times are from 1970 on, codes and kinds are defined. *)
Definition event_ok (e : event) : Prop := with_types (ev_attrs e) /\ a_count (ev_dropped e) /\ a_time (ev_time e).
Definition link_ok (l : link) : Prop := with_types (li_attrs l) /\ a_count (li_dropped l).
Definition span_ok (s : span) : Prop :=
  with_types (sp_attrs s) /\ a_count (sp_drop_attrs s) /\ a_count (sp_drop_events s) /\ a_count (sp_drop_links s) /\
  a_time (sp_start s) /\ a_time (sp_end s) /\ 0 <= sp_code s <= 2 /\ 0 <= sp_kind s <= 5 /\
  Forall event_ok (sp_events s) /\ Forall link_ok (sp_links s).

(** The scopes partition the spans: each holds a run of consecutive spans, not empty, that bear the name of the scope; the version and the
    schema are those of the first span of the run; runs are as long as possible. *)
Inductive runs : list span -> list pscopespans -> Prop :=
  | runs_nil : runs [] []
  | runs_cons s r rest x xs :
      pss_name x = sc_name (sp_scope s) -> pss_version x = sc_version (sp_scope s) -> pss_schema x = sc_schema (sp_scope s) ->
      Forall (fun s' => sc_name (sp_scope s') = pss_name x) r ->
      Forall2 span_says (s :: r) (pss_spans x) ->
      (forall s' rest', rest = s' :: rest' -> sc_name (sp_scope s') <> pss_name x) ->
      runs rest xs ->
      runs (s :: r ++ rest) (x :: xs).

(** Everything about a span but its resource. *)
Definition without_resource (s : span) : span :=
  Span (sp_scope s) [] (sp_drop_attrs s) (sp_drop_events s) (sp_drop_links s) (sp_kind s) (sp_name s) (sp_parent s) (sp_id s) (sp_start s) (sp_end s)
       (sp_trace s) (sp_state s) (sp_code s) (sp_message s) (sp_attrs s) (sp_events s) (sp_links s).

(** The exports of one client, one after another; the batch given, and the answer of the pipeline to what it is handed. *)
Fixpoint span_exports (rm : rmap) (l : list (list span * (list presspans -> option error))) : option (list (list presspans * list telemetry * option error)) :=
  match l with
  | [] => Some []
  | (b, consume) :: r => '(rm', x, ts, e) ← export_spans rm b consume; os ← span_exports rm' r; Some ((x, ts, e) :: os)
  end.
(** An empty batch is handed over as no resource at all; any other as one resource, that of its first span, with all spans. *)
Definition span_export_says (i : list span * (list presspans -> option error)) (o : list presspans * list telemetry * option error) : Prop :=
  let '(b, consume) := i in let '(x, ts, e) := o in
  match b with
  | [] => x = []
  | s :: _ => exists r xs, x = [PResSpans r xs] /\ resource_says (sp_res s) r /\ runs b xs /\ Forall2 span_says b (concat (map pss_spans xs))
  end /\ e = consume x /\ exists t, ts = [t] /\ telemetry_says "num_spans" (length b) e t.
(** Batches that the export does not refuse: see [C39_unnamed_scope_refuted]. *)
Definition batch_ok (b : list span) : Prop :=
  Forall span_ok b /\ match b with [] => True | s :: _ => sc_name (sp_scope s) <> ""%string /\ a_set (sp_res s) /\ with_types (sp_res s) end.
