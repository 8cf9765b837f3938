(** Model of the synchronous instruments of a meter under every schedule.

    Any number of [Observer]s (M/internal/syncstate/sync.go:39-58), any number of output
    views over any number of readers, any number of concurrent [Observe] calls and any
    number of concurrent collections.  Views may be shared by several instruments and one
    instrument may feed one view more than once (Compile reuses a matching stream,
    M/internal/viewstate/viewstate.go:263-401).  M stands for /repo/lightstep/sdk/metric.
    Simplification: the instruments and views exist from the start.

    A step is one atomic action of one thread.  Where several Go statements are
    folded into one step the comment says why no other thread can tell. *)
From stdpp Require Import base list option.
From Coq Require Import ZArith.
From Verif Require Import Base.
Local Open Scope Z_scope.

(** One output stream of the instrument: temporality, owning reader, cardinality limit.
    M/internal/viewstate/viewstate.go:416-446 chooses lowmemorySyncInstrument for delta
    and statefulSyncInstrument otherwise; the limit is aggregator.Config.CardinalityLimit
    (M/aggregator/aggregator.go:83-90). *)
Record view := View { v_delta : bool; v_reader : nat; v_limit : nat }.

(** Everything the instrument is configured with.
    - [c_mon], [c_inj], [c_change]: the aggregator's Storage with Merge as the monoid
      operation, Update of one number as combining with [c_inj stamp number], and
      HasChange of the aggregator of a stream (M/aggregator/aggregator.go:137-184).  Streams may have
      different aggregators: with multisets of measurements as the monoid (AggSync) the contents of a
      Storage are independent of what its aggregator computes from them.  [stamp] is the position of this
      Update among all Updates; only the gauge uses it (M/aggregator/gauge/gauge.go:140-148).
      Simplification: Update, Move, Merge and Copy are single atomic actions; the Go code
      makes them so with a lock or an atomic instruction per Storage
      (M/aggregator/aggregator.go:116-136).
    - [c_K], [c_fp], [c_keq]: attribute lists, fingerprintAttributes and attributesEqual
      (M/internal/syncstate/bykeyvalue.go:26-36, 82-118).
    - [c_vkey v k]: applyKeysFilter of view [v] applied to attribute.NewSet of [k]
      (M/internal/syncstate/sync.go:282-295, M/internal/viewstate/base_instrument.go:117-140).
    - [c_ovk], [c_ovkey]: OverflowAttributes and OverflowAttributeSet
      (M/internal/pipeline/pipeline.go).
    - [c_views]: the streams; [c_insts]: for each instrument the streams it feeds
      (viewstate.Combine, M/internal/viewstate/viewstate.go:559-585).
    - [c_periods], [c_ilimit], [c_ignore]: InactiveCollectionPeriods,
      InstrumentCardinalityLimit, IgnoreCollisions (M/sdkinstrument/performance.go). *)
Record config := Config {
  c_mon : cmon;
  c_num : Type;
  c_inj : nat -> c_num -> c_mon;
  c_change : nat -> c_mon -> bool;
  c_K : Type;
  c_fp : c_K -> Z;
  c_keq : c_K -> c_K -> bool;
  c_key : Type;
  c_key_dec : EqDecision c_key;
  c_vkey : nat -> c_K -> c_key;
  c_ovk : c_K;
  c_ovkey : c_key;
  c_views : list view;
  c_insts : list (list nat);
  c_periods : Z;
  c_ilimit : Z;
  c_ignore : bool
}.
#[global] Existing Instance c_key_dec.

Section model.
Context (c : config).
Notation A := (car (c_mon c)).
Notation num := (c_num c).
Notation K := (c_K c).
Notation key := (c_key c).

(** sync.Once of a record (M/internal/syncstate/sync.go:219, 274-277). *)
Inductive once := ONew | ORun | ODone.

(** syncAccumulator (M/internal/viewstate/accumulators.go:97-104): the current Storage and
    the holder pointer.  [snapshot] only carries a value inside SnapshotAndProcess and is
    part of the collecting thread's program counter ([QMerge]). *)
Record acc := Acc { a_cur : A; a_hold : nat }.

(** recordKV (M/internal/syncstate/sync.go:180-237).  [r_live]: the record is reachable from
    currentFP.  currentFP[fp] is the chain of live records with fingerprint fp, most recently
    inserted first (acquireWriteKV prepends, SnapshotAndProcess keeps the order), so the whole
    map is a function of the records.  [r_upd] and [r_col] are unbounded counts; the program
    sees them modulo 2^32 ([same32]).  [r_accs] is the (multi)accumulator, one
    for each stream of the instrument [r_inst]. *)
Record rec := Rec {
  r_inst : nat;
  r_attrs : K;
  r_live : bool;
  r_val : Z;
  r_upd : Z;
  r_col : Z;
  r_inact : Z;
  r_once : once;
  r_accs : list acc
}.

(** storageHolder (M/internal/viewstate/base_instrument.go:43-46) together with the view and key
    it was created for; [h_live]: it is in the view's data map. *)
Record holder := Holder {
  h_view : nat;
  h_key : key;
  h_live : bool;
  h_aux : Z;
  h_sto : A
}.

(** The position of a collection in its loop over instruments (M/producer.go:112-115): reader,
    instruments still to do, current instrument, records of it still to do. *)
Record job := Job { j_rd : nat; j_rest : list nat; j_inst : nat; j_todo : list nat }.

(** Program counters.  P: one call of Observe (M/internal/syncstate/sync.go:330-364), starting
    after the range test and attribute processing.  Q: one collection by reader [rd]
    (M/producer.go:91-127): SnapshotAndProcess of every instrument, then Collect of each of the
    reader's views.  [j] is an index into the instrument's list of streams.  [ph] is [None] in normalCollect and [Some unmapped] in scavengeCollect. *)
Inductive pc :=
  | PRead (o : nat) (k : K) (n : num)
  | PWrite (o : nat) (k : K) (n : num)
  | PInit (r : nat) (n : num)
  | PInitV (r : nat) (n : num) (j : nat)
  | PUpd (r : nat) (n : num) (j : nat)
  | PCount (r : nat)
  | PUnref (r : nat)
  | PDone
  | QLock (rd : nat) (os : list nat)
  | QRecs (q : job)
  | QLoad (q : job) (r : nat)
  | QTry (q : job) (r : nat)
  | QCas (q : job) (r : nat)
  | QScav (q : job) (r : nat) (unm : bool)
  | QMove (q : job) (r : nat) (mods : Z) (ph : option bool) (j : nat)
  | QMerge (q : job) (r : nat) (mods : Z) (ph : option bool) (j : nat) (a : A)
  | QRel (q : job) (r : nat) (mods : Z) (ph : option bool) (j : nat)
  | QViews (rd : nat) (vs : list nat)
  | QColl (rd : nat) (vs : list nat) (v : nat) (todo : list nat)
  | QPoint (rd : nat) (vs : list nat) (v : nat) (todo : list nat) (h : nat) (refs : Z)
  | QDecide (rd : nat) (vs : list nat) (v : nat) (todo : list nat) (h : nat) (refs : Z) (a : A)
  | QDone
  | PBad.

(** Ghost: one Update of one view by call [u_tid].  Its stamp is its index in the log. *)
Record upd := Upd { u_tid : nat; u_view : nat; u_key : key; u_num : num }.

(** One point of one collection [p_tid]. *)
Record point := Point { p_tid : nat; p_view : nat; p_key : key; p_agg : A }.

(** [s_wl]: each Observer.lock held for writing, by whom (readers hold it only inside one step);
    [s_il]: instLock of each view.  [s_log], [s_out], [s_drop] are the history: Updates made,
    points output, and points suppressed because HasChange was false. *)
Record state := State {
  s_recs : list rec;
  s_holds : list holder;
  s_thr : list pc;
  s_wl : list (option nat);
  s_il : list (option nat);
  s_log : list upd;
  s_out : list point;
  s_drop : list point
}.

Definition init : state :=
  State [] [] [] (map (fun _ => None) (c_insts c)) (map (fun _ => None) (c_views c)) [] [] [].

(** Field updates. *)
Definition set_recs (f : list rec -> list rec) (s : state) : state :=
  State (f (s_recs s)) (s_holds s) (s_thr s) (s_wl s) (s_il s) (s_log s) (s_out s) (s_drop s).
Definition set_holds (f : list holder -> list holder) (s : state) : state :=
  State (s_recs s) (f (s_holds s)) (s_thr s) (s_wl s) (s_il s) (s_log s) (s_out s) (s_drop s).
Definition set_thr (f : list pc -> list pc) (s : state) : state :=
  State (s_recs s) (s_holds s) (f (s_thr s)) (s_wl s) (s_il s) (s_log s) (s_out s) (s_drop s).
Definition set_wl (o : nat) (w : option nat) (s : state) : state :=
  State (s_recs s) (s_holds s) (s_thr s) (<[o := w]> (s_wl s)) (s_il s) (s_log s) (s_out s) (s_drop s).
Definition set_il (v : nat) (w : option nat) (s : state) : state :=
  State (s_recs s) (s_holds s) (s_thr s) (s_wl s) (<[v := w]> (s_il s)) (s_log s) (s_out s) (s_drop s).
Definition add_log (u : upd) (s : state) : state :=
  State (s_recs s) (s_holds s) (s_thr s) (s_wl s) (s_il s) (s_log s ++ [u]) (s_out s) (s_drop s).
Definition add_out (p : point) (s : state) : state :=
  State (s_recs s) (s_holds s) (s_thr s) (s_wl s) (s_il s) (s_log s) (s_out s ++ [p]) (s_drop s).
Definition add_drop (p : point) (s : state) : state :=
  State (s_recs s) (s_holds s) (s_thr s) (s_wl s) (s_il s) (s_log s) (s_out s) (s_drop s ++ [p]).

Definition r_setval (z : Z) (r : rec) : rec :=
  Rec (r_inst r) (r_attrs r) (r_live r) z (r_upd r) (r_col r) (r_inact r) (r_once r) (r_accs r).
Definition r_setlive (b : bool) (r : rec) : rec :=
  Rec (r_inst r) (r_attrs r) b (r_val r) (r_upd r) (r_col r) (r_inact r) (r_once r) (r_accs r).
Definition r_setupd (z : Z) (r : rec) : rec :=
  Rec (r_inst r) (r_attrs r) (r_live r) (r_val r) z (r_col r) (r_inact r) (r_once r) (r_accs r).
Definition r_setcol (z : Z) (r : rec) : rec :=
  Rec (r_inst r) (r_attrs r) (r_live r) (r_val r) (r_upd r) z (r_inact r) (r_once r) (r_accs r).
Definition r_setinact (z : Z) (r : rec) : rec :=
  Rec (r_inst r) (r_attrs r) (r_live r) (r_val r) (r_upd r) (r_col r) z (r_once r) (r_accs r).
Definition r_setonce (o : once) (r : rec) : rec :=
  Rec (r_inst r) (r_attrs r) (r_live r) (r_val r) (r_upd r) (r_col r) (r_inact r) o (r_accs r).
Definition r_setaccs (f : list acc -> list acc) (r : rec) : rec :=
  Rec (r_inst r) (r_attrs r) (r_live r) (r_val r) (r_upd r) (r_col r) (r_inact r) (r_once r) (f (r_accs r)).
Definition h_setlive (b : bool) (h : holder) : holder :=
  Holder (h_view h) (h_key h) b (h_aux h) (h_sto h).
Definition h_setaux (z : Z) (h : holder) : holder :=
  Holder (h_view h) (h_key h) (h_live h) z (h_sto h).
Definition h_setsto (a : A) (h : holder) : holder :=
  Holder (h_view h) (h_key h) (h_live h) (h_aux h) a.

(** The streams fed by instrument [o]. *)
Definition iviews (o : nat) : list nat := default [] (c_insts c !! o).

(** The comparison of two uint32 counters, sync.go:261, of counts kept unbounded here. *)
Definition same32 (a b : Z) : bool := (a - b) mod 4294967296 =? 0.

(** Index of the last element satisfying [P]. *)
Fixpoint find_last {X} (P : X -> bool) (l : list X) : option nat :=
  match l with
  | [] => None
  | x :: l =>
      match find_last P l with
      | Some i => Some (S i)
      | None => if P x then Some 0%nat else None
      end
  end.

(** Index of the first element satisfying [P]. *)
Fixpoint find_first {X} (P : X -> bool) (l : list X) : option nat :=
  match l with
  | [] => None
  | x :: l => if P x then Some 0%nat else option_map S (find_first P l)
  end.

(** The chain search of acquireReadLockedKV (bykeyvalue.go:145-152) and of acquireWriteKV
    (bykeyvalue.go:222-231): the first record of the chain of [k]'s fingerprint that has equal
    attributes, or simply the first one when collisions are ignored. *)
Definition find_read (o : nat) (k : K) (s : state) : option nat :=
  find_last (fun r => r_live r && Nat.eqb (r_inst r) o && (c_fp c (r_attrs r) =? c_fp c k) &&
                      (c_ignore c || c_keq c k (r_attrs r))) (s_recs s).
Definition find_write (o : nat) (k : K) (s : state) : option nat :=
  find_last (fun r => r_live r && Nat.eqb (r_inst r) o && (c_fp c (r_attrs r) =? c_fp c k) &&
                      (c_ignore c || c_keq c (r_attrs r) k)) (s_recs s).

(** len(inst.currentFP): the number of distinct fingerprints of live records. *)
Definition live_fps (o : nat) (s : state) : list Z :=
  remove_dups (map (fun r => c_fp c (r_attrs r))
                   (List.filter (fun r => r_live r && Nat.eqb (r_inst r) o) (s_recs s))).
Definition nfp (o : nat) (s : state) : Z := Z.of_nat (length (live_fps o s)).

(** refcountMapped.ref (M/internal/syncstate/refcount_mapped.go:41-45): add 2, report whether the
    unmapped bit is clear. *)
Definition ref (i : nat) (s : state) : state * bool :=
  match s_recs s !! i with
  | Some r => (set_recs (<[i := r_setval (r_val r + 2) r]>) s, Z.even (r_val r + 2))
  | None => (s, false)
  end.

(** acquireReadLockedKV up to the overflow test (bykeyvalue.go:144-159). *)
Definition try_read (o : nat) (k : K) (s : state) : state * option nat :=
  match find_read o k s with
  | Some i => let '(s', ok) := ref i s in (s', if ok then Some i else None)
  | None => (s, None)
  end.

(** newRefcountMapped and the record built in acquireNotfoundKV (refcount_mapped.go:33-37,
    bykeyvalue.go:194-200). *)
Definition new_rec (o : nat) (k : K) : rec := Rec o k true 2 0 0 0 ONew [].

(** getOrCreateEntry (M/internal/viewstate/base_instrument.go:142-187): index of the holder used
    for key [k] of view [v], creating it if needed. *)
Definition find_holder (v : nat) (k : key) (s : state) : option nat :=
  find_first (fun h => h_live h && Nat.eqb (h_view h) v && bool_decide (h_key h = k)) (s_holds s).
Definition live_holders (v : nat) (s : state) : list nat :=
  List.filter (fun i => match s_holds s !! i with
                        | Some h => h_live h && Nat.eqb (h_view h) v
                        | None => false
                        end) (seq 0 (length (s_holds s))).
Definition vsize (v : nat) (s : state) : nat := length (live_holders v s).
Definition vlimit (v : nat) : nat := match c_views c !! v with Some w => v_limit w | None => 0%nat end.
Definition vdelta (v : nat) : bool := match c_views c !! v with Some w => v_delta w | None => false end.
Definition new_holder (v : nat) (k : key) (s : state) : state * nat :=
  (set_holds (fun l => l ++ [Holder v k true 0 mu]) s, length (s_holds s)).
Definition get_or_create (v : nat) (k : key) (s : state) : state * nat :=
  match find_holder v k s with
  | Some h => (s, h)
  | None =>
      if Nat.eqb (vsize v s) (vlimit v) then
        match find_holder v (c_ovkey c) s with
        | Some h => (s, h)
        | None => new_holder v k s
        end
      else if Nat.eqb (vsize v s + 1) (vlimit v) then
        if bool_decide (k = c_ovkey c) then new_holder v k s
        else match find_holder v (c_ovkey c) s with
             | Some _ => new_holder v k s
             | None => new_holder v (c_ovkey c) s
             end
      else new_holder v k s
  end.

(** The reader's views, in the order they are collected (M/producer.go:117-126,
    M/internal/viewstate/viewstate.go:189-193). *)
Definition views_of (rd : nat) : list nat :=
  List.filter (fun v => match c_views c !! v with Some w => Nat.eqb (v_reader w) rd | None => false end)
              (seq 0 (length (c_views c))).

(** The records reachable from currentFP of instrument [o]. *)
Definition live_recs (o : nat) (s : state) : list nat :=
  List.filter (fun i => match s_recs s !! i with Some r => r_live r && Nat.eqb (r_inst r) o | None => false end)
              (seq 0 (length (s_recs s))).

Definition goto (t : nat) (p : pc) (s : state) : state := set_thr (<[t := p]>) s.
Definition upd_rec (i : nat) (r : rec) (s : state) : state := set_recs (<[i := r]>) s.
Definition upd_hold (i : nat) (h : holder) (s : state) : state := set_holds (<[i := h]>) s.

(** The end of [collect] (sync.go:147-176) for record [r] after a call of conditionalCollect that
    returned true ([Some mods]) or false ([None]): collectedCount, inactiveCount, and for an
    unmapped record its removal from currentFP.  The map itself is rewritten at the end of the
    chain (sync.go:129-141); nobody can look at it before the lock is released. *)
Definition finish (q : job) (i : nat) (r : rec) (mods : option Z)
                  (ph : option bool) (t : nat) (s : state) : state :=
  let r := match mods with Some m => r_setcol m r | None => r end in
  let r := r_setinact 0 r in
  let r := match ph with Some true => r_setlive false r | _ => r end in
  goto t (QRecs q) (upd_rec i r s).

(** One atomic step of thread [t] at program counter [p].  [ch] resolves map iteration order.
    [None]: the thread is blocked (or finished). *)
Definition step_pc (s : state) (t : nat) (p : pc) (ch : nat) : option state :=
  match p with
  (* acquireReadKV, bykeyvalue.go:124-173: RLock; lookup; ref; overflow test; possibly a second
     lookup; RUnlock.  One step: the map does not change while the lock is held, and the only
     shared write is ref(). *)
  | PRead o k n =>
      match s_wl s !! o with
      | Some None =>
          let '(s1, f1) := try_read o k s in
          match f1 with
          | Some i => Some (goto t (PInit i n) s1)
          | None =>
              if c_ilimit c - 1 <=? nfp o s1 then
                let '(s2, f2) := try_read o (c_ovk c) s1 in
                match f2 with
                | Some i => Some (goto t (PInit i n) s2)
                | None => Some (goto t (PWrite o (c_ovk c) n) s2)
                end
              else Some (goto t (PWrite o k n) s1)
          end
      | _ => None
      end
  (* one iteration of acquireNotfoundKV, bykeyvalue.go:202-236, one critical section *)
  | PWrite o k n =>
      match s_wl s !! o with
      | Some None =>
          match find_write o k s with
          | Some i =>
              let '(s', ok) := ref i s in
              Some (goto t (if ok then PInit i n else PWrite o k n) s')
          | None =>
              Some (goto t (PInit (length (s_recs s)) n) (set_recs (fun l => l ++ [new_rec o k]) s))
          end
      | _ => None
      end
  (* readAccumulator: once.Do(initialize), sync.go:274-295; others wait while it runs *)
  | PInit i n =>
      match s_recs s !! i with
      | None => Some (goto t PBad s)
      | Some r =>
          match r_once r with
          | ONew => Some (goto t (PInitV i n 0) (upd_rec i (r_setonce ORun r) s))
          | ORun => None
          | ODone => Some (goto t (PUpd i n 0) s)
          end
      end
  (* NewAccumulator of the j-th stream: findStorage under instLock, accumulators.go:32-54,
     multiInstrument.NewAccumulator, viewstate.go:575-585 *)
  | PInitV i n j =>
      match s_recs s !! i with
      | None => Some (goto t PBad s)
      | Some r =>
          match iviews (r_inst r) !! j with
          | Some v =>
              match s_il s !! v with
              | Some None =>
                  let '(s1, h) := get_or_create v (c_vkey c v (r_attrs r)) s in
                  match s_holds s1 !! h with
                  | None => Some (goto t PBad s)
                  | Some hd =>
                      Some (goto t (PInitV i n (S j))
                             (upd_rec i (r_setaccs (fun l => l ++ [Acc mu h]) r)
                               (upd_hold h (h_setaux (h_aux hd + 1) hd) s1)))
                  end
              | _ => None
              end
          | None => Some (goto t (PUpd i n 0) (upd_rec i (r_setonce ODone r) s))
          end
      end
  (* Update of the j-th accumulator, accumulators.go:90-94, 106-109 *)
  | PUpd i n j =>
      match s_recs s !! i with
      | None => Some (goto t PBad s)
      | Some r =>
          match r_accs r !! j with
          | Some a =>
              match s_holds s !! a_hold a with
              | None => Some (goto t PBad s)
              | Some hd =>
                  let a' := Acc (mop (a_cur a) (c_inj c (length (s_log s)) n)) (a_hold a) in
                  Some (goto t (PUpd i n (S j))
                         (add_log (Upd t (h_view hd) (h_key hd) n)
                           (upd_rec i (r_setaccs (<[j := a']>) r) s)))
              end
          | None => Some (goto t (PCount i) s)
          end
      end
  (* atomic.AddUint32(&rec.updateCount, 1), sync.go:363 *)
  | PCount i =>
      match s_recs s !! i with
      | None => Some (goto t PBad s)
      | Some r => Some (goto t (PUnref i) (upd_rec i (r_setupd (r_upd r + 1) r) s))
      end
  (* deferred unref, sync.go:358, refcount_mapped.go:47-49 *)
  | PUnref i =>
      match s_recs s !! i with
      | None => Some (goto t PBad s)
      | Some r => Some (goto t PDone (upd_rec i (r_setval (r_val r - 2) r) s))
      end
  | PDone => None
  (* the loop over instruments, producer.go:112-115; SnapshotAndProcess takes the write lock,
     sync.go:97-99 *)
  | QLock rd os =>
      match os with
      | [] => Some (goto t (QViews rd (views_of rd)) s)
      | o :: os =>
          match s_wl s !! o with
          | Some None => Some (goto t (QRecs (Job rd os o (live_recs o s))) (set_wl o (Some t) s))
          | _ => None
          end
      end
  (* next record in any order, or unlock, sync.go:101-143 *)
  | QRecs q =>
      match j_todo q with
      | [] => Some (goto t (QLock (j_rd q) (j_rest q)) (set_wl (j_inst q) None s))
      | _ :: _ =>
          match j_todo q !! ch with
          | Some i => Some (goto t (QLoad (Job (j_rd q) (j_rest q) (j_inst q) (delete ch (j_todo q))) i) s)
          | None => None
          end
      end
  (* normalCollect, sync.go:147-163, 257-264; inactiveCount is protected by the write lock *)
  | QLoad q i =>
      match s_recs s !! i with
      | None => Some (goto t PBad s)
      | Some r =>
          if same32 (r_upd r) (r_col r) then
            let s' := upd_rec i (r_setinact (r_inact r + 1) r) s in
            if r_inact r + 1 <? c_periods c then Some (goto t (QRecs q) s')
            else Some (goto t (QTry q i) s')
          else Some (goto t (QMove q i (r_upd r) None 0) s)
      end
  (* tryUnmap: load, refcount_mapped.go:58 *)
  | QTry q i =>
      match s_recs s !! i with
      | None => Some (goto t PBad s)
      | Some r => Some (goto t (if r_val r =? 0 then QCas q i else QScav q i false) s)
      end
  (* tryUnmap: compare and swap, refcount_mapped.go:61-65 *)
  | QCas q i =>
      match s_recs s !! i with
      | None => Some (goto t PBad s)
      | Some r =>
          if r_val r =? 0 then Some (goto t (QScav q i true) (upd_rec i (r_setval 1 r) s))
          else Some (goto t (QScav q i false) s)
      end
  (* scavengeCollect, sync.go:167, 257-264 *)
  | QScav q i unm =>
      match s_recs s !! i with
      | None => Some (goto t PBad s)
      | Some r =>
          if negb unm && same32 (r_upd r) (r_col r) then
            Some (finish q i r None (Some unm) t s)
          else Some (goto t (QMove q i (r_upd r) (Some unm) 0) s)
      end
  (* readAccumulator().SnapshotAndProcess(release), sync.go:266-270, accumulators.go:84-88, 111-121:
     Move of the j-th accumulator.  If the record were not initialised the collector would run
     initialize here; that is unreachable (theorem) and is modelled as PBad.  syncLock is not
     modelled: every caller already holds Observer.lock. *)
  | QMove q i mods ph j =>
      match s_recs s !! i with
      | None => Some (goto t PBad s)
      | Some r =>
          match r_once r with
          | ODone =>
              match r_accs r !! j with
              | Some a =>
                  Some (goto t (QMerge q i mods ph j (a_cur a))
                         (upd_rec i (r_setaccs (<[j := Acc mu (a_hold a)]>) r) s))
              | None => Some (finish q i r (Some mods) ph t s)
              end
          | _ => Some (goto t PBad s)
          end
      end
  (* Merge of the snapshot into holder.storage, accumulators.go:116 *)
  | QMerge q i mods ph j a =>
      match s_recs s !! i with
      | None => Some (goto t PBad s)
      | Some r =>
          match r_accs r !! j with
          | None => Some (goto t PBad s)
          | Some ac =>
              match s_holds s !! a_hold ac with
              | None => Some (goto t PBad s)
              | Some hd =>
                  Some (goto t (match ph with
                                | Some true => QRel q i mods ph j
                                | _ => QMove q i mods ph (S j)
                                end)
                         (upd_hold (a_hold ac) (h_setsto (mop (h_sto hd) a) hd) s))
              end
          end
      end
  (* release: atomic.AddInt64(&holder.auxiliary, -1), accumulators.go:117-120 *)
  | QRel q i mods ph j =>
      match s_recs s !! i with
      | None => Some (goto t PBad s)
      | Some r =>
          match r_accs r !! j with
          | None => Some (goto t PBad s)
          | Some ac =>
              match s_holds s !! a_hold ac with
              | None => Some (goto t PBad s)
              | Some hd =>
                  Some (goto t (QMove q i mods ph (S j))
                         (upd_hold (a_hold ac) (h_setaux (h_aux hd - 1) hd) s))
              end
          end
      end
  (* Collect of the next view takes instLock, collectors.go:35, 54 *)
  | QViews rd vs =>
      match vs with
      | [] => Some (goto t QDone s)
      | v :: vs =>
          match s_il s !! v with
          | Some None => Some (goto t (QColl rd vs v (live_holders v s)) (set_il v (Some t) s))
          | _ => None
          end
      end
  (* next entry in any order, or unlock.  Cumulative: Copy and output (collectors.go:40-42).
     Delta: load the reference count (collectors.go:64) *)
  | QColl rd vs v todo =>
      match todo with
      | [] => Some (goto t (QViews rd vs) (set_il v None s))
      | _ :: _ =>
          match todo !! ch with
          | None => None
          | Some h =>
              match s_holds s !! h with
              | None => Some (goto t PBad s)
              | Some hd =>
                  if vdelta v then Some (goto t (QPoint rd vs v (delete ch todo) h (h_aux hd)) s)
                  else Some (goto t (QColl rd vs v (delete ch todo))
                              (add_out (Point t v (h_key hd) (h_sto hd)) s))
              end
          end
      end
  (* Move of the entry into the point, collectors.go:66 *)
  | QPoint rd vs v todo h refs =>
      match s_holds s !! h with
      | None => Some (goto t PBad s)
      | Some hd => Some (goto t (QDecide rd vs v todo h refs (h_sto hd)) (upd_hold h (h_setsto mu hd) s))
      end
  (* keep or drop the point, delete the unreferenced entry, collectors.go:71-90 *)
  | QDecide rd vs v todo h refs a =>
      match s_holds s !! h with
      | None => Some (goto t PBad s)
      | Some hd =>
          let p := Point t v (h_key hd) a in
          if c_change c v a then Some (goto t (QColl rd vs v todo) (add_out p s))
          else
            let s' := if refs =? 0 then upd_hold h (h_setlive false hd) s else s in
            Some (goto t (QColl rd vs v todo) (add_drop p s'))
      end
  | QDone => None
  | PBad => None
  end.

(** What the environment may do: start a call on instrument [o], start a collection, let a thread take a step. *)
Inductive label :=
  | LObserve (o : nat) (k : K) (n : num)
  | LCollect (rd : nat)
  | LStep (t : nat) (ch : nat).

Definition step (s : state) (l : label) : option state :=
  match l with
  | LObserve o k n =>
      if Nat.ltb o (length (c_insts c)) then Some (set_thr (fun l => l ++ [PRead o k n]) s) else None
  | LCollect rd => Some (set_thr (fun l => l ++ [QLock rd (seq 0 (length (c_insts c)))]) s)
  | LStep t ch => match s_thr s !! t with Some p => step_pc s t p ch | None => None end
  end.

(** Any finite schedule. *)
Fixpoint run (s : state) (ls : list label) : option state :=
  match ls with
  | [] => Some s
  | l :: ls => match step s l with Some s' => run s' ls | None => None end
  end.

Definition reachable (s : state) : Prop := exists ls, run init ls = Some s.

End model.

Arguments Acc {c} _ _.
Arguments a_cur {c} _.
Arguments a_hold {c} _.
Arguments Rec {c} _ _ _ _ _ _ _ _ _.
Arguments r_inst {c} _.
Arguments r_attrs {c} _.
Arguments r_live {c} _.
Arguments r_val {c} _.
Arguments r_upd {c} _.
Arguments r_col {c} _.
Arguments r_inact {c} _.
Arguments r_once {c} _.
Arguments r_accs {c} _.
Arguments Holder {c} _ _ _ _ _.
Arguments h_view {c} _.
Arguments h_key {c} _.
Arguments h_live {c} _.
Arguments h_aux {c} _.
Arguments h_sto {c} _.
Arguments Upd {c} _ _ _ _.
Arguments u_tid {c} _.
Arguments u_view {c} _.
Arguments u_key {c} _.
Arguments u_num {c} _.
Arguments Point {c} _ _ _ _.
Arguments p_tid {c} _.
Arguments p_view {c} _.
Arguments p_key {c} _.
Arguments p_agg {c} _.
Arguments State {c} _ _ _ _ _ _ _ _.
Arguments s_recs {c} _.
Arguments s_holds {c} _.
Arguments s_thr {c} _.
Arguments s_wl {c} _.
Arguments s_il {c} _.
Arguments s_log {c} _.
Arguments s_out {c} _.
Arguments s_drop {c} _.
Arguments PRead {c} _ _ _.
Arguments PWrite {c} _ _ _.
Arguments PInit {c} _ _.
Arguments PInitV {c} _ _ _.
Arguments PUpd {c} _ _ _.
Arguments PCount {c} _.
Arguments PUnref {c} _.
Arguments PDone {c}.
Arguments QLock {c} _ _.
Arguments QRecs {c} _.
Arguments QLoad {c} _ _.
Arguments QTry {c} _ _.
Arguments QCas {c} _ _.
Arguments QScav {c} _ _ _.
Arguments QMove {c} _ _ _ _ _.
Arguments QMerge {c} _ _ _ _ _ _.
Arguments QRel {c} _ _ _ _ _.
Arguments QViews {c} _ _.
Arguments QColl {c} _ _ _ _.
Arguments QPoint {c} _ _ _ _ _ _.
Arguments QDecide {c} _ _ _ _ _ _ _.
Arguments QDone {c}.
Arguments PBad {c}.
Arguments LObserve {c} _ _ _.
Arguments LCollect {c} _.
Arguments LStep {c} _ _.
Arguments run {c} _ _.
Arguments step {c} _ _.
Arguments step_pc {c} _ _ _ _.
Arguments reachable {c} _.
Arguments set_recs {c} _ _.
Arguments set_holds {c} _ _.
Arguments set_thr {c} _ _.
Arguments set_wl {c} _ _ _.
Arguments set_il {c} _ _ _.
Arguments add_log {c} _ _.
Arguments add_out {c} _ _.
Arguments add_drop {c} _ _.
Arguments r_setval {c} _ _.
Arguments r_setlive {c} _ _.
Arguments r_setupd {c} _ _.
Arguments r_setcol {c} _ _.
Arguments r_setinact {c} _ _.
Arguments r_setonce {c} _ _.
Arguments r_setaccs {c} _ _.
Arguments h_setlive {c} _ _.
Arguments h_setaux {c} _ _.
Arguments h_setsto {c} _ _.
Arguments find_read {c} _ _ _.
Arguments find_write {c} _ _ _.
Arguments live_fps {c} _ _.
Arguments nfp {c} _ _.
Arguments ref {c} _ _.
Arguments try_read {c} _ _ _.
Arguments new_rec {c} _ _.
Arguments find_holder {c} _ _ _.
Arguments live_holders {c} _ _.
Arguments vsize {c} _ _.
Arguments new_holder {c} _ _ _.
Arguments get_or_create {c} _ _ _.
Arguments live_recs {c} _ _.
Arguments goto {c} _ _ _.
Arguments upd_rec {c} _ _ _.
Arguments upd_hold {c} _ _ _.
Arguments finish {c} _ _ _ _ _ _ _.
