(** Asynchronous instruments of a meter as one reader sees them: observations, snapshots, cumulative and delta views,
    callbacks.  M stands for /repo/lightstep/sdk/metric.
    Simplification: histories are sequential at the grain of single observations; observations made by other goroutines
    appear between those of the running callback.  Each reader has its own views and its own store, so one reader is modelled. *)
From Coq Require Import ZArith Bool String.
From stdpp Require Import base list option strings.
From Verif Require Import Num Agg Attr.
Local Open Scope Z_scope.

(** A compiled asynchronous view: newAsyncView and compileAsync (M/internal/viewstate/viewstate.go:492-554).  [av_gauge]: the
    aggregation is neither of the two sums. *)
Record aview := AView { av_delta : bool; av_gauge : bool; av_keys : option (list string); av_limit : nat }.
(** viewstate.go:513-527: which Collect is used. *)
Definition stateful (w : aview) : bool := av_delta w && negb (av_gauge w).
(** asyncstate.Observer (M/internal/asyncstate/async.go:49-72): the meter it belongs to ([opaque]), its kind and the views it was compiled to
    for this reader; no view: disabled. *)
Record ainst := AInst { ai_meter : nat; ai_kind : kind; ai_views : list nat }.
(** The instruments and views a meter [a_meter] may meet, and AttributeSizeLimit. *)
Record acfg := ACfg { a_meter : nat; a_views : list aview; a_insts : list ainst; a_size : nat }.

Section async.
Context {N : arith} (c : acfg).
Notation set := (list kv).

(** instrumentBase.data and statefulAsyncInstrument.prior (M/internal/viewstate/base_instrument.go:52-61, collectors.go:117-120):
    Storages by attribute set. *)
Record vst := VSt { d_data : list (set * N); d_prior : list (set * N) }.
(** One entry of State.store (async.go:34-45): instrument, attribute set, and its (multi)asyncAccumulator: the current value and for each
    view the entry of [d_data] it will update (accumulators.go:62-142). *)
Record entry := Entry { e_inst : nat; e_set : set; e_cur : N; e_hold : list (nat * set) }.

Definition get (k : set) (l : list (set * N)) : option N := snd <$> find (fun p => bool_decide (p.1 = k)) l.
Definition overflow_set : set := new_set overflow_attrs.

(** getOrCreateEntry (base_instrument.go:142-187): the new map and the key of the entry that is used. *)
Definition get_or_create (lim : nat) (k : set) (l : list (set * N)) : list (set * N) * set :=
  match get k l with
  | Some _ => (l, k)
  | None =>
      if Nat.eqb (length l) lim then
        match get overflow_set l with
        | Some _ => (l, overflow_set)
        | None => (l ++ [(k, zero)], k)
        end
      else if Nat.eqb (S (length l)) lim then
        if bool_decide (k = overflow_set) then (l ++ [(k, zero)], k)
        else match get overflow_set l with
             | Some _ => (l ++ [(k, zero)], k)
             | None => (l ++ [(overflow_set, zero)], overflow_set)
             end
      else (l ++ [(k, zero)], k)
  end.

(** applyKeysFilter of view [w], with Go's equality of sets as map keys (see Attr). *)
Definition view_key (w : aview) (s : set) : set := canon (apply_filter (av_keys w) s).

(** compiledAsyncBase.NewAccumulator for each view of the instrument (accumulators.go:61-79, viewstate.go:575-585). *)
Fixpoint new_acc (vs : list nat) (s : set) (st : list vst) : list (nat * set) * list vst :=
  match vs with
  | [] => ([], st)
  | v :: vs =>
      match st !! v, a_views c !! v with
      | Some x, Some w =>
          let '(l, k) := get_or_create (av_limit w) (view_key w s) (d_data x) in
          let '(hs, st') := new_acc vs s (<[v := VSt l (d_prior x)]> st) in
          ((v, k) :: hs, st')
      | _, _ => new_acc vs s st
      end
  end.

Definition same_entry (i : nat) (s : set) (e : entry) : bool := Nat.eqb (e_inst e) i && bool_decide (e_set e = s).
Definition set_cur (n : N) (e : entry) : entry := Entry (e_inst e) (e_set e) n (e_hold e).
(** getOrCreate and Update (async.go:123-151, 179-181, accumulators.go:130-134) for an enabled instrument. *)
Definition observe (i : nat) (s : set) (n : N) (x : list entry * list vst) : list entry * list vst :=
  let '(es, st) := x in
  match a_insts c !! i with
  | Some inst =>
      match ai_views inst with
      | [] => x
      | vs =>
          if existsb (same_entry i s) es
          then (map (fun e => if same_entry i s e then set_cur n e else e) es, st)
          else let '(hs, st') := new_acc vs s st in (es ++ [Entry i s n hs], st')
      end
  | None => x
  end.
(** The attribute set of an observation: NewObserveConfig builds a set of the options' attributes, getOrCreate truncates it (async.go:141-143). *)
Definition obs_set (l : list kv) : set := canon (new_set (truncate (a_size c) (new_set l))).

(** asyncAccumulator.SnapshotAndProcess (accumulators.go:136-142): Update of the Storage, an addition for sums (sum.go:119-122),
    a replacement for gauges (gauge.go:140-148). *)
Definition update_at (v : nat) (k : set) (n : N) (st : list vst) : list vst :=
  match st !! v, a_views c !! v with
  | Some x, Some w =>
      <[v := VSt (map (fun p => if bool_decide (p.1 = k) then (p.1, if av_gauge w then n else add p.2 n) else p) (d_data x)) (d_prior x)]> st
  | _, _ => st
  end.
(** Observer.SnapshotAndProcess of all instruments (async.go:112-121, M/producer.go:117-119), over the entries in the given order. *)
Definition snapshot (es : list entry) (st : list vst) : list vst :=
  fold_left (fun st e => fold_left (fun st h => update_at h.1 h.2 (e_cur e) st) (e_hold e) st) es st.

(** lowmemoryAsyncInstrument.Collect (M/internal/viewstate/collectors.go:100-113) and statefulAsyncInstrument.Collect (collectors.go:132-179):
    the points and the new state.  SubtractSwap and HasChange are those of the sums (sum.go:115-117, 143-145). *)
Definition collect_view (w : aview) (x : vst) : list (set * N) * vst :=
  if stateful w then
    (omap (fun p => match get p.1 (d_prior x) with
                    | Some old => let d := sum_subtract old p.2 in if m_change (sum_methods N) d then Some (p.1, d) else None
                    | None => Some p
                    end) (d_data x),
     VSt (match get overflow_set (d_data x) with Some n => [(overflow_set, n)] | None => [] end) (d_data x))
  else (d_data x, VSt [] (d_prior x)).
Fixpoint collect_views (ws : list aview) (st : list vst) : list (list (set * N)) * list vst :=
  match ws, st with
  | w :: ws, x :: st =>
      let '(pts, x') := collect_view w x in
      let '(out, st') := collect_views ws st in
      (pts :: out, x' :: st')
  | _, _ => ([], st)
  end.

(** One collection, given the observations that were accepted; [order] is the order in which the store is iterated. *)
Definition obs : Type := nat * set * N.
Definition observe_all (l : list obs) (st : list vst) : list entry * list vst :=
  fold_left (fun x o => observe o.1.1 o.1.2 o.2 x) l ([], st).
Definition collection (order : list entry -> list entry) (l : list obs) (st : list vst) : list (list (set * N)) * list vst :=
  let '(es, st) := observe_all l st in
  collect_views (a_views c) (snapshot (order es) st).

(** ** Callbacks *)
(** What a user passes as an instrument: something else, or an instrument of this SDK (possibly of another meter). *)
Inductive obj := Foreign | Inst (i : nat).
(** A call of ObserveInt64 or ObserveFloat64 on an Observer that some callback was given: its own one ([None]), or the [j]-th one ever handed out. *)
Record attempt := Attempt { at_cs : option nat; at_obj : obj; at_val : N; at_attrs : list kv }.
Inductive result := Recorded | Disabled | OutOfRange | NotDeclared | NotSDK | AfterReturn.

(** The meter: the views, the list of callbacks (M/meter.go:49), the instruments declared by each callback ever registered (callback.go:28-35),
    metricRegistration.callback ([Some] until unregistered; meter.go:53-59), and callbackState.callback of every run (callback.go:86-98). *)
Record mst := MSt {
  m_views : list vst;
  m_cbs : list nat;
  m_decl : list (list nat);
  m_regs : list (option nat);
  m_runs : list (option nat)
}.
Definition m_init : mst := MSt (map (fun _ => VSt [] []) (a_views c)) [] [] [] [].

(** asyncstate.Observe (async.go:153-182).  [cur] is the observer of the running callback. *)
Definition try_observe (cur : nat) (runs : list (option nat)) (decl : list (list nat)) (a : attempt) (x : list entry * list vst)
  : (list entry * list vst) * result :=
  match runs !! default cur (at_cs a) with
  | Some (Some cb) =>
      match at_obj a with
      | Foreign => (x, NotSDK)
      | Inst i =>
          if existsb (Nat.eqb i) (default [] (decl !! cb)) then
            match a_insts c !! i with
            | Some inst =>
                if range_test (at_val a) (ai_kind inst) then
                  match ai_views inst with
                  | [] => (x, Disabled)
                  | _ => (observe i (obs_set (at_attrs a)) (at_val a) x, Recorded)
                  end
                else (x, OutOfRange)
            | None => (x, NotSDK)
            end
          else (x, NotDeclared)
      end
  | _ => (x, AfterReturn)
  end.

(** NewCallback (callback.go:39-71): the instruments, or an error. *)
Fixpoint check_objs (l : list obj) : option (list nat) :=
  match l with
  | [] => Some []
  | Foreign :: _ => None
  | Inst i :: l =>
      match a_insts c !! i with
      | Some inst => if Nat.eqb (ai_meter inst) (a_meter c) then option_map (cons i) (check_objs l) else None
      | None => None
      end
  end.
Definition new_callback (objs : list obj) (has_function : bool) : option (list nat) :=
  match objs with
  | [] => None
  | _ => if has_function then check_objs objs else None
  end.
(** meter.RegisterCallback (M/meter.go:76-90): the registration's number, or an error. *)
Definition register (objs : list obj) (has_function : bool) (m : mst) : mst * option nat :=
  match new_callback objs has_function with
  | Some decl =>
      let cb := length (m_decl m) in
      (MSt (m_views m) (m_cbs m ++ [cb]) (m_decl m ++ [decl]) (m_regs m ++ [Some cb]) (m_runs m), Some cb)
  | None => (m, None)
  end.
(** The loop of Unregister (meter.go:104-110): the first match is overwritten with the last element, the list loses its last element. *)
Definition swap_remove (cb : nat) (l : list nat) : list nat :=
  match list_find (eq cb) l with
  | Some (i, _) => match list.last l with Some x => take (length l - 1) (<[i := x]> l) | None => l end
  | None => l
  end.
(** metricRegistration.Unregister (meter.go:93-115): false is ErrAlreadyUnregistered. *)
Definition unregister (r : nat) (m : mst) : mst * bool :=
  match m_regs m !! r with
  | Some (Some cb) => (MSt (m_views m) (swap_remove cb (m_cbs m)) (m_decl m) (<[r := None]> (m_regs m)) (m_runs m), true)
  | _ => (m, false)
  end.

(** Callback.Run (callback.go:75-82) of callback [cb]; the user's function makes the observations [as]. *)
Definition run_callback (cb : nat) (ats : list attempt) (x : list entry * list vst) (runs : list (option nat)) (decl : list (list nat))
  : (list entry * list vst) * list result * list (option nat) :=
  let cur := length runs in
  let runs1 := runs ++ [Some cb] in
  let '(x, rs) := fold_left (fun y a => let '(x', r) := try_observe cur runs1 decl a y.1 in (x', y.2 ++ [r])) ats (x, []) in
  (x, rs, <[cur := None]> runs1).
Fixpoint run_callbacks (cbs : list nat) (script : nat -> list attempt) (x : list entry * list vst) (runs : list (option nat)) (decl : list (list nat))
  : (list entry * list vst) * list (nat * list result) * list (option nat) :=
  match cbs with
  | [] => (x, [], runs)
  | cb :: cbs =>
      let '(x, rs, runs) := run_callback cb (script cb) x runs decl in
      let '(x, out, runs) := run_callbacks cbs script x runs decl in
      (x, (cb, rs) :: out, runs)
  end.
(** collectFor (M/producer.go:91-127), the asynchronous part.  [script cb] is what the function of callback [cb] does this time. *)
Record collected := Collected { co_points : list (list (set * N)); co_ran : list (nat * list result) }.
Definition collect_for (order : list entry -> list entry) (script : nat -> list attempt) (m : mst) : mst * collected :=
  let '(es, st, ran, runs) := run_callbacks (m_cbs m) script ([], m_views m) (m_runs m) (m_decl m) in
  let '(pts, st) := collect_views (a_views c) (snapshot (order es) st) in
  (MSt st (m_cbs m) (m_decl m) (m_regs m) runs, Collected pts ran).

(** Everything a program may do; [OLate] is an observation made outside any collection. *)
Inductive mop := ORegister (objs : list obj) (has_function : bool) | OUnregister (r : nat)
               | OCollect (order : list entry -> list entry) (script : nat -> list attempt) | OLate (a : attempt).
Inductive mres := RRegister (r : option nat) | RUnregister (ok : bool) | RCollect (o : collected) | RLate (r : result).
Definition mexec (m : mst) (o : mop) : mst * mres :=
  match o with
  | ORegister objs f => let '(m, r) := register objs f m in (m, RRegister r)
  | OUnregister r => let '(m, b) := unregister r m in (m, RUnregister b)
  | OCollect order script => let '(m, o) := collect_for order script m in (m, RCollect o)
  | OLate a => let '(_, st, r) := try_observe (length (m_runs m)) (m_runs m) (m_decl m) a ([], m_views m) in
               (MSt st (m_cbs m) (m_decl m) (m_regs m) (m_runs m), RLate r)
  end.
Fixpoint mrun (m : mst) (os : list mop) : mst * list mres :=
  match os with
  | [] => (m, [])
  | o :: os => let '(m, r) := mexec m o in let '(m, rs) := mrun m os in (m, r :: rs)
  end.
End async.
Arguments VSt {N} _ _.
Arguments d_data {N} _.
Arguments d_prior {N} _.
Arguments Entry {N} _ _ _ _.
Arguments e_inst {N} _.
Arguments e_set {N} _.
Arguments e_cur {N} _.
Arguments e_hold {N} _.
Arguments Attempt {N} _ _ _ _.
Arguments at_cs {N} _.
Arguments at_obj {N} _.
Arguments at_val {N} _.
Arguments at_attrs {N} _.
Arguments m_views {N} _.
Arguments m_cbs {N} _.
Arguments m_decl {N} _.
Arguments m_regs {N} _.
Arguments m_runs {N} _.
Arguments Collected {N} _ _.
Arguments co_points {N} _.
Arguments co_ran {N} _.
Arguments ORegister {N} _ _.
Arguments OUnregister {N} _.
Arguments OCollect {N} _ _.
Arguments OLate {N} _.
Arguments RRegister {N} _.
Arguments RUnregister {N} _.
Arguments RCollect {N} _.
Arguments RLate {N} _.

(** ** A finer step, for an interleaving that the sequential histories above leave out (those of Unregister are in Reg) *)
(** Observe (async.go:153-182) interrupted between the check at line 154 and getOrCreate at line 179, and resumed when the collection whose
    observer it uses has ended: the store it writes to is that of the ended collection and is not read again, the views are the current ones. *)
Definition resume_late {N : arith} (c : acfg) (i : nat) (l : list kv) (n : N) (m : mst) : mst :=
  MSt (observe c i (obs_set c l) n ([], m_views m)).2 (m_cbs m) (m_decl m) (m_regs m) (m_runs m).
