(** Asynchronous instruments of a meter step by step: any number of readers, collections, callbacks and goroutines that observe at the
    same time.  M stands for /repo/lightstep/sdk/metric.  A step is what happens under one lock, or between two accesses to
    shared memory.  Simplifications: instruments, views and callbacks exist from the start (see Reg and Inst for the others); only the
    asynchronous part of collections (see SyncModel for the other); one meter. *)
From Coq Require Import ZArith Bool String.
From stdpp Require Import base list option strings.
From Verif Require Import Num Agg Attr Async.

(** asyncAccumulator (M/internal/viewstate/accumulators.go:122-128): its view, its holder (an index in the memory of that view) and [current]. *)
Record acc {N : arith} := Acc { ac_view : nat; ac_cell : nat; ac_cur : N }.
Arguments acc N : clear implicits.
Arguments Acc {N} _ _ _.
Arguments ac_view {N} _.
Arguments ac_cell {N} _.
Arguments ac_cur {N} _.
(** One entry of State.store (M/internal/asyncstate/async.go:34-45): instrument, attribute set, accumulators of its views (multiAccumulator). *)
Record ent {N : arith} := Ent { en_inst : nat; en_set : list kv; en_accs : list (acc N) }.
Arguments ent N : clear implicits.
Arguments Ent {N} _ _ _.
Arguments en_inst {N} _.
Arguments en_set {N} _.
Arguments en_accs {N} _.
(** instrumentBase and statefulAsyncInstrument (M/internal/viewstate/base_instrument.go:52-61, collectors.go:117-120): the storageHolders ever
    allocated, and the maps [data] and [prior] from attribute sets to them. *)
Record vw {N : arith} := Vw { w_cells : list N; w_data : list (list kv * nat); w_prior : list (list kv * nat) }.
Arguments vw N : clear implicits.
Arguments Vw {N} _ _ _.
Arguments w_cells {N} _.
Arguments w_data {N} _.
Arguments w_prior {N} _.

(** Where a collection is (M/producer.go:91-127): running callbacks (those to come, the run in progress), taking snapshots (the instruments to
    come; the accumulators of the instrument in progress), collecting (the views to come), over. *)
Inductive phase := KRun (todo : list nat) (cur : option nat) | KSnap (todo : list nat) (pend : option (list (nat * nat)))
                 | KColl (todo : list nat) | KDone.
(** State.lock: the code only asks whether it is held. *)
Inductive owner := Free | Thread (t : nat) | Snapshot.
(** A collection: State (async.go:34-45) and its output so far. *)
Record coll {N : arith} := Coll {
  k_reader : nat; k_phase : phase; k_lock : owner; k_store : list (ent N); k_out : list (nat * list (list kv * N))
}.
Arguments coll N : clear implicits.
Arguments Coll {N} _ _ _ _ _.
Arguments k_reader {N} _.
Arguments k_phase {N} _.
Arguments k_lock {N} _.
Arguments k_store {N} _.
Arguments k_out {N} _.
(** callbackState (M/internal/asyncstate/callback.go:86-98): its collection, its callback, and whether [callback] is still set. *)
Record run := Run { r_coll : nat; r_cb : nat; r_live : bool }.
(** Where a call of Observe is (async.go:153-182): about to test, about to lock State.lock, in NewAccumulator, in Update, returned. *)
Inductive pc {N : arith} := TCheck | TLock | TMake (todo : list nat) (accs : list (acc N)) | TUpd (e pos : nat) | TEnd (r : result).
Arguments pc N : clear implicits.
Arguments TCheck {N}.
Arguments TLock {N}.
Arguments TMake {N} _ _.
Arguments TUpd {N} _ _.
Arguments TEnd {N} _.
(** A call of ObserveInt64 or ObserveFloat64 by some goroutine on the observer of the [t_run]-th run. *)
Record thr {N : arith} := Thr { t_run : nat; t_obj : obj; t_set : list kv; t_val : N; t_pc : pc N }.
Arguments thr N : clear implicits.
Arguments Thr {N} _ _ _ _ _.
Arguments t_run {N} _.
Arguments t_obj {N} _.
Arguments t_set {N} _.
Arguments t_val {N} _.
Arguments t_pc {N} _.
Record cst {N : arith} := CSt { s_views : list (vw N); s_colls : list (coll N); s_runs : list run; s_thr : list (thr N) }.
Arguments cst N : clear implicits.
Arguments CSt {N} _ _ _ _.
Arguments s_views {N} _.
Arguments s_colls {N} _.
Arguments s_runs {N} _.
Arguments s_thr {N} _.

Section conc.
Context {N : arith} (c : acfg) (vr : nat -> nat) (decl : list (list nat)).
Notation set := (list kv).

(** Observer.compiled (async.go:56-57) at reader [p]; [vr v] is the reader view [v] belongs to. *)
Definition compiled (p i : nat) : list nat :=
  match a_insts c !! i with Some x => List.filter (fun v => Nat.eqb (vr v) p) (ai_views x) | None => [] end.
(** Compiler.Collectors of reader [p] (M/internal/viewstate/viewstate.go:189-193). *)
Definition collectors (p : nat) : list nat := List.filter (fun v => Nat.eqb (vr v) p) (seq 0 (length (a_views c))).

Definition cell (k : set) (l : list (set * nat)) : option nat := snd <$> find (fun p => bool_decide (p.1 = k)) l.
(** getOrCreateEntry (base_instrument.go:142-187), the same code as [Async.get_or_create], with the entries' identities. *)
Definition make_cell (k : set) (x : vw N) : vw N * nat :=
  (Vw (w_cells x ++ [zero]) (w_data x ++ [(k, length (w_cells x))]) (w_prior x), length (w_cells x)).
Definition find_storage (lim : nat) (k : set) (x : vw N) : vw N * nat :=
  match cell k (w_data x) with
  | Some h => (x, h)
  | None =>
      if Nat.eqb (length (w_data x)) lim then
        match cell overflow_set (w_data x) with
        | Some h => (x, h)
        | None => make_cell k x
        end
      else if Nat.eqb (S (length (w_data x))) lim then
        if bool_decide (k = overflow_set) then make_cell k x
        else match cell overflow_set (w_data x) with
             | Some _ => make_cell k x
             | None => make_cell overflow_set x
             end
      else make_cell k x
  end.

(** Collect of a view (collectors.go:100-113 and 132-179), under its instLock.  The cells of the old [prior] map, which SubtractSwap
    overwrites, are not read again. *)
Definition value_of (x : vw N) (h : nat) : N := default zero (w_cells x !! h).
Definition values (x : vw N) (l : list (set * nat)) : list (set * N) := map (fun p => (p.1, value_of x p.2)) l.
Definition collect_cells (w : aview) (x : vw N) : list (set * N) * vw N :=
  let pts := (collect_view w (VSt (values x (w_data x)) (values x (w_prior x)))).1 in
  if stateful w then
    match cell overflow_set (w_data x) with
    | Some h => (pts, Vw (w_cells x ++ [value_of x h]) [(overflow_set, length (w_cells x))] (w_data x))
    | None => (pts, Vw (w_cells x) [] (w_data x))
    end
  else (pts, Vw (w_cells x) [] (w_prior x)).

(** ** Collections *)
Definition set_phase (k : coll N) (f : phase) : coll N := Coll (k_reader k) f (k_lock k) (k_store k) (k_out k).
Definition set_lock (k : coll N) (o : owner) : coll N := Coll (k_reader k) (k_phase k) o (k_store k) (k_out k).
Definition set_store (k : coll N) (es : list (ent N)) : coll N := Coll (k_reader k) (k_phase k) (k_lock k) es (k_out k).
Definition put_coll (q : nat) (k : coll N) (s : cst N) : cst N := CSt (s_views s) (<[q := k]> (s_colls s)) (s_runs s) (s_thr s).
Definition put_view (v : nat) (x : vw N) (s : cst N) : cst N := CSt (<[v := x]> (s_views s)) (s_colls s) (s_runs s) (s_thr s).
Definition put_run (j : nat) (r : run) (s : cst N) : cst N := CSt (s_views s) (s_colls s) (<[j := r]> (s_runs s)) (s_thr s).
Definition put_pc (t : nat) (f : pc N) (s : cst N) : cst N :=
  match s_thr s !! t with
  | Some x => CSt (s_views s) (s_colls s) (s_runs s) (<[t := Thr (t_run x) (t_obj x) (t_set x) (t_val x) f]> (s_thr s))
  | None => s
  end.

(** The accumulators of instrument [i] in the store, each as the index of its entry and its index there. *)
Definition accs_of (i : nat) (es : list (ent N)) : list (nat * nat) :=
  concat (imap (fun e x => if Nat.eqb (en_inst x) i then map (pair e) (seq 0 (length (en_accs x))) else []) es).
Definition the_acc (es : list (ent N)) (x : nat * nat) : option (acc N) := e ← es !! x.1; en_accs e !! x.2.
(** asyncAccumulator.SnapshotAndProcess (accumulators.go:136-142): Update of the storage of its holder. *)
Definition process (a : acc N) (s : cst N) : cst N :=
  match s_views s !! ac_view a, a_views c !! ac_view a with
  | Some x, Some w =>
      put_view (ac_view a) (Vw (alter (fun y => if av_gauge w then ac_cur a else add y (ac_cur a)) (ac_cell a) (w_cells x)) (w_data x) (w_prior x)) s
  | _, _ => s
  end.

(** A step of collection [q]: collectFor (producer.go:91-127), Callback.Run (callback.go:75-82), Observer.SnapshotAndProcess (async.go:112-121).
    [n] is the accumulator that the iteration of the map comes to next; iterations may mix the accumulators of several entries, which is more
    than the code does. *)
Definition go (q n : nat) (s : cst N) : option (cst N) :=
  k ← s_colls s !! q;
  match k_phase k with
  | KRun todo (Some j) =>
      r ← s_runs s !! j;
      Some (put_coll q (set_phase k (KRun todo None)) (put_run j (Run (r_coll r) (r_cb r) false) s))
  | KRun (cb :: todo) None =>
      Some (put_coll q (set_phase k (KRun todo (Some (length (s_runs s)))))
             (CSt (s_views s) (s_colls s) (s_runs s ++ [Run q cb true]) (s_thr s)))
  | KRun [] None => Some (put_coll q (set_phase k (KSnap (seq 0 (length (a_insts c))) None)) s)
  | KSnap todo (Some pend) =>
      match pend with
      | [] => Some (put_coll q (set_lock (set_phase k (KSnap todo None)) Free) s)
      | _ => x ← pend !! n; a ← the_acc (k_store k) x;
             Some (put_coll q (set_phase k (KSnap todo (Some (delete n pend)))) (process a s))
      end
  | KSnap (i :: todo) None =>
      match k_lock k with
      | Free => Some (put_coll q (set_lock (set_phase k (KSnap todo (Some (accs_of i (k_store k))))) Snapshot) s)
      | _ => None
      end
  | KSnap [] None => Some (put_coll q (set_phase k (KColl (collectors (k_reader k)))) s)
  | KColl (v :: todo) =>
      x ← s_views s !! v; w ← a_views c !! v;
      let '(pts, x') := collect_cells w x in
      Some (put_coll q (Coll (k_reader k) (KColl todo) (k_lock k) (k_store k) (k_out k ++ [(v, pts)])) (put_view v x' s))
  | KColl [] => Some (put_coll q (set_phase k KDone) s)
  | KDone => None
  end.

(** ** Observations *)
(** The tests of Observe (async.go:154-177): a result, or go on. *)
Definition check (p cb : nat) (live : bool) (x : thr N) : pc N :=
  if live then
    match t_obj x with
    | Foreign => TEnd NotSDK
    | Inst i =>
        if existsb (Nat.eqb i) (default [] (decl !! cb)) then
          match a_insts c !! i with
          | Some inst =>
              if range_test (t_val x) (ai_kind inst) then
                match compiled p i with [] => TEnd Disabled | _ => TLock end
              else TEnd OutOfRange
          | None => TEnd NotSDK
          end
        else TEnd NotDeclared
    end
  else TEnd AfterReturn.
Definition find_entry (i : nat) (s : set) (es : list (ent N)) : option nat :=
  fst <$> list_find (fun e => en_inst e = i /\ en_set e = s) es.
Definition inst_of (x : thr N) : nat := match t_obj x with Inst i => i | Foreign => 0 end.
Definition put_cur (es : list (ent N)) (e pos : nat) (n : N) : list (ent N) :=
  alter (fun x => Ent (en_inst x) (en_set x) (alter (fun a => Acc (ac_view a) (ac_cell a) n) pos (en_accs x))) e es.

(** A step of a call: the tests, getOrCreate under State.lock (async.go:123-151), one view at a time in multiInstrument.NewAccumulator
    (viewstate.go:578-585), multiAccumulator.Update (accumulators.go:90-94). *)
Definition step (t : nat) (s : cst N) : option (cst N) :=
  x ← s_thr s !! t; r ← s_runs s !! t_run x; k ← s_colls s !! r_coll r;
  match t_pc x with
  | TCheck => Some (put_pc t (check (k_reader k) (r_cb r) (r_live r) x) s)
  | TLock =>
      match k_lock k with
      | Free =>
          match find_entry (inst_of x) (t_set x) (k_store k) with
          | Some e => Some (put_pc t (TUpd e 0) s)
          | None => Some (put_pc t (TMake (compiled (k_reader k) (inst_of x)) []) (put_coll (r_coll r) (set_lock k (Thread t)) s))
          end
      | _ => None
      end
  | TMake (v :: todo) accs =>
      y ← s_views s !! v; w ← a_views c !! v;
      let '(y', h) := find_storage (av_limit w) (view_key w (t_set x)) y in
      Some (put_pc t (TMake todo (accs ++ [Acc v h zero])) (put_view v y' s))
  | TMake [] accs =>
      Some (put_pc t (TUpd (length (k_store k)) 0)
             (put_coll (r_coll r) (set_lock (set_store k (k_store k ++ [Ent (inst_of x) (t_set x) accs])) Free) s))
  | TUpd e pos =>
      match the_acc (k_store k) (e, pos) with
      | Some _ => Some (put_pc t (TUpd e (S pos)) (put_coll (r_coll r) (set_store k (put_cur (k_store k) e pos (t_val x))) s))
      | None => Some (put_pc t (TEnd Recorded) s)
      end
  | TEnd _ => None
  end.

(** What may happen next: reader [p] begins a collection that will run the callbacks [cbs]; some goroutine calls an observer; a collection
    or a call makes a step. *)
Inductive label := LBegin (p : nat) (cbs : list nat) | LObserve (j : nat) (x : obj) (n : N) (l : list kv) | LGo (q n : nat) | LStep (t : nat).
Definition exec (s : cst N) (a : label) : option (cst N) :=
  match a with
  | LBegin p cbs => Some (CSt (s_views s) (s_colls s ++ [Coll p (KRun cbs None) Free [] []]) (s_runs s) (s_thr s))
  | LObserve j x n l =>
      match s_runs s !! j with
      | Some _ => Some (CSt (s_views s) (s_colls s) (s_runs s) (s_thr s ++ [Thr j x (obs_set c l) n TCheck]))
      | None => None
      end
  | LGo q n => go q n s
  | LStep t => step t s
  end.
Fixpoint execs (s : cst N) (tr : list label) : option (cst N) :=
  match tr with [] => Some s | a :: tr => s' ← exec s a; execs s' tr end.
Definition c_init : cst N := CSt (map (fun _ => Vw [] [] []) (a_views c)) [] [] [].
End conc.
