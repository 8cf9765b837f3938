(** The meter provider: meters, instruments, shutdown and the clock of each producer, under any number of goroutines.
    M stands for /repo/lightstep/sdk/metric.  One step is one critical section, or one call of a reader. *)
From Coq Require Import ZArith Bool String.
From stdpp Require Import base list option strings gmap.
From Verif Require Import Num Attr View Data.
Local Open Scope Z_scope.

(** The options of NewMeterProvider and the configuration they make (M/config.go:24-77).  A resource is a text; None is resource.Default(). *)
Inductive prov_option := WithResource (res : string) | WithReader (name : string) (os : list view_option) | WithPerformance (p : perf).
Record config := Config { cf_res : option string; cf_readers : list (string * list view_option); cf_perf : perf }.
Definition apply_option (c : config) (o : prov_option) : config :=
  match o with
  | WithResource r => Config (Some r) (cf_readers c) (cf_perf c)
  | WithReader n os => Config (cf_res c) (cf_readers c ++ [(n, os)]) (cf_perf c)
  | WithPerformance p => Config (cf_res c) (cf_readers c) p
  end.
(** The configuration of a new provider (M/provider.go:63-69). *)
Definition configured (os : list prov_option) : config :=
  let c := fold_left apply_option os (Config None [] (Perf false 0 0 0 0)) in Config (cf_res c) (cf_readers c) (perf_validate (cf_perf c)).

(** meter (M/meter.go:38-51) without its callbacks, which are in Async.  Instruments are numbers; a nil *Observer is None. *)
Record meter := Meter {
  mr_lib : scope;
  mr_comp : list cstate;                    (* compilers, one per reader *)
  mr_desc : list (descriptor * nat);        (* byDesc *)
  mr_sync : list (option nat);              (* syncInsts *)
  mr_async : list nat                       (* asyncInsts *)
}.

(** A goroutine in Shutdown (M/provider.go:149-170): before its critical section; calling the readers, with the errors so far; returned. *)
Inductive closing :=
  | Entering
  | Closing (next : nat) (errs : list string)
  | Returned (errs : list string)
  | AlreadyShutdown.

(** MeterProvider (provider.go:41-50), the lastCollect of each producer (M/producer.go:31-36), the goroutines in Shutdown, and the calls of
    reader.Shutdown so far with the errors they returned. *)
Record prov := Prov {
  pv_views : list views;
  pv_start : Z;
  pv_ordered : list meter;
  pv_meters : option (list (scope * nat));  (* nil after Shutdown; a meter is its position in [pv_ordered] *)
  pv_next : nat;                            (* instruments allocated so far *)
  pv_last : list Z;
  pv_closers : list closing;
  pv_calls : list (nat * list string)
}.

Section prov.
Context (L : libs).

(** NewMeterProvider (provider.go:62-90) at time [now]. *)
Definition new_provider (os : list prov_option) (now : Z) : prov :=
  let c := configured os in
  Prov (map (fun r => (validate L (new_views r.1 (cf_perf c) r.2)).1) (cf_readers c)) now [] (Some []) 0 (map (fun _ => now) (cf_readers c)) [] [].

(** What goroutines do: provider.Meter; creation of an instrument on the i-th meter; collection by a reader at a time; the start of a
    Shutdown; the next step of the t-th Shutdown, where the reader that it calls, if any, returns some errors. *)
Inductive act :=
  | AMeter (lib : scope)
  | AInst (m : nat) (d : descriptor)
  | AProduce (r : nat) (now : Z)
  | AShutdown
  | AStep (t : nat) (errs : list string).
Inductive res :=
  | RMeter (i : nat)
  | RNoop                                         (* a meter that does nothing *)
  | RInst (x : option nat) (conflict : bool)      (* the instrument, and whether an error is returned *)
  | RSequence (s : sequence)
  | RCrash                                        (* a nil pointer is dereferenced *)
  | ROk.

(** A Go map given as a list of pairs. *)
Definition find_pair {K V} `{EqDecision K} (k : K) (l : list (K * V)) : option V := snd <$> find (fun p => bool_decide (p.1 = k)) l.

(** Compile on each compiler of a meter (meter.go:156-170): the new states, the leaves and the conflicts per reader. *)
Fixpoint compile_each (vs : list views) (lib : scope) (cs : list cstate) (d : descriptor) : list cstate * list (list nat) * list conflict :=
  match vs, cs with
  | v :: vs', c :: cs' =>
      let '(c', ids, e) := compile L v lib c d in
      let '(cs'', idss, es) := compile_each vs' lib cs' d in (c' :: cs'', ids :: idss, e ++ es)
  | _, _ => ([], [], [])
  end.
Definition is_nil {X} (l : list X) : bool := match l with [] => true | _ => false end.

(** configureInstrument (meter.go:132-184) with syncstate.New (M/internal/syncstate/sync.go:64-92: nil when no reader wants it) and
    asyncstate.New (M/internal/asyncstate/async.go:86-97: never nil).  [n] is the next instrument. *)
Definition configure (vs : list views) (m : meter) (d : descriptor) (n : nat) : meter * option nat * bool :=
  let '(cs, idss, es) := compile_each vs (mr_lib m) (mr_comp m) d in
  match find_pair d (mr_desc m) with
  | Some x => (Meter (mr_lib m) cs (mr_desc m) (mr_sync m) (mr_async m), Some x, negb (is_nil es))
  | None =>
      if synchronous (i_kind d) then
        if forallb is_nil idss then (Meter (mr_lib m) cs (mr_desc m) (mr_sync m ++ [None]) (mr_async m), None, negb (is_nil es))
        else (Meter (mr_lib m) cs ((d, n) :: mr_desc m) (mr_sync m ++ [Some n]) (mr_async m), Some n, negb (is_nil es))
      else (Meter (mr_lib m) cs ((d, n) :: mr_desc m) (mr_sync m) (mr_async m ++ [n]), Some n, negb (is_nil es))
  end.

(** SnapshotAndProcess on every synchronous instrument (producer.go:113-115), which starts by locking a field of the instrument. *)
Definition crashes (m : meter) : bool := existsb (fun x => match x with None => true | Some _ => false end) (mr_sync m).

Definition step (p : prov) (a : act) : option (prov * res) :=
  let '(Prov vs t0 ord ms nx la cl calls) := p in
  match a with
  | AMeter lib =>                                                   (* provider.go:104-137 *)
      match ms with
      | None => Some (p, RNoop)
      | Some l =>
          match find_pair lib l with
          | Some i => Some (p, RMeter i)
          | None => let i := length ord in
                    Some (Prov vs t0 (ord ++ [Meter lib (map (fun _ => cempty) vs) [] [] []]) (Some ((lib, i) :: l)) nx la cl calls, RMeter i)
          end
      end
  | AInst i d =>
      m ← ord !! i;
      let '(m', x, e) := configure vs m d nx in
      Some (Prov vs t0 (<[i := m']> ord) ms (S nx) la cl calls, RInst x e)
  | AProduce r now =>                                               (* producer.go:46-88 and 91-127 *)
      last ← la !! r;
      Some (Prov vs t0 ord ms nx (<[r := now]> la) cl calls,
            if existsb crashes ord then RCrash else RSequence (Sequence t0 last now))
  | AShutdown => Some (Prov vs t0 ord ms nx la (cl ++ [Entering]) calls, ROk)
  | AStep t errs =>
      c ← cl !! t;
      match c with
      | Entering =>
          match ms with
          | None => Some (Prov vs t0 ord None nx la (<[t := AlreadyShutdown]> cl) calls, ROk)
          | Some _ => Some (Prov vs t0 ord None nx la (<[t := Closing 0 []]> cl) calls, ROk)
          end
      | Closing k es =>
          if Nat.ltb k (length vs) then
            Some (Prov vs t0 ord ms nx la (<[t := Closing (S k) (es ++ errs)]> cl) (calls ++ [(k, errs)]), ROk)
          else Some (Prov vs t0 ord ms nx la (<[t := Returned es]> cl) calls, ROk)
      | _ => None
      end
  end.

(** A history: the actions with their results. *)
Fixpoint run (p : prov) (l : list act) : option (prov * list (act * res)) :=
  match l with
  | [] => Some (p, [])
  | a :: l' => '(p1, r) ← step p a; '(p2, rs) ← run p1 l'; Some (p2, (a, r) :: rs)
  end.
End prov.
