(** The meter provider of the launcher: the temporality preference reaches every stream.  P stands for /repo/pipelines. *)
From Coq Require Import ZArith Bool String.
From stdpp Require Import base list option strings gmap.
From Verif Require Import Num Attr View Prov Pipe.

(** The options that NewMetricsPipeline gives to NewMeterProvider (P/metrics.go:105-111): the resource, and a periodic reader, which has the name
    [reader], with the selector of tempoOptions (P/metrics.go:161-191). *)
Definition pipeline_options (resource reader : string) (sel : kind -> tempo) : list prov_option :=
  [WithResource resource; WithReader reader [WithDefaultTempo sel]].
(** Nothing when the preference is refused (P/metrics.go:94-98). *)
Definition preferred_options (resource reader pref : string) : option (list prov_option) :=
  pipeline_options resource reader <$> tempo_options pref.
