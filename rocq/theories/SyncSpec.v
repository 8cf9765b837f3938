(** Vocabulary for stating the properties of synchronous instruments (C01-C10, C16).
    Everything here speaks of a schedule [ls] and the state it leads to: the calls made, the
    measurements recorded ([s_log]), the points output ([s_out]) and suppressed ([s_drop]).
    Nothing in this file models Go code. *)
From Coq Require Import ZArith Bool.
From stdpp Require Import base list option.
From Verif Require Import Base SyncModel.
Local Open Scope Z_scope.

(** Every stream index mentioned by an instrument exists. *)
Definition wf (c : config) : Prop :=
  forall o l v, c_insts c !! o = Some l -> v ∈ l -> (v < length (c_views c))%nat.

Section spec.
Context {c : config}.
Notation A := (car (c_mon c)).
Notation st := (state c).
Notation key := (c_key c).
Implicit Types (s : st) (v x i t : nat) (k : key).

(** The calls and collections started by a schedule, in order; the [t]-th one is thread [t]. *)
Definition calls (ls : list (label c)) : list (label c) :=
  List.filter (fun l => match l with LStep _ _ => false | _ => true end) ls.

(** Measurement [x] (the [x]-th recorded one) belongs to series [k] of view [v]. *)
Definition in_series s v k x : Prop :=
  exists u, s_log s !! x = Some u /\ u_view u = v /\ u_key u = k.
(** The aggregate of measurement [x] alone. *)
Definition value s x : A := match s_log s !! x with Some u => c_inj c x (u_num u) | None => mu end.

(** Point [p] is the aggregate of exactly the distinct measurements [ids], all of its own series. *)
Definition made_of s (p : point c) (ids : list nat) : Prop :=
  NoDup ids /\ (forall x, x ∈ ids -> in_series s (p_view p) (p_key p) x) /\ p_agg p = msum (value s) ids.

(** The data the instruments still hold: in output entries, in series records, in collections under way. *)
Definition same_series v k v' k' : bool := Nat.eqb v' v && bool_decide (k' = k).
Definition held_by_entries s v k : A :=
  msum (fun h => only (same_series v k (h_view h) (h_key h)) (h_sto h)) (s_holds s).
Definition entry_of s v k (h : nat) : bool :=
  match s_holds s !! h with Some e => same_series v k (h_view e) (h_key e) | None => false end.
Definition held_by_records s v k : A :=
  msum (fun r => msum (fun a => only (entry_of s v k (a_hold a)) (a_cur a)) (r_accs r)) (s_recs s).
Definition held_by_collections s v k : A :=
  msum (fun p => match p with
                 | QMerge _ i _ _ j a =>
                     match s_recs s !! i with
                     | Some r => match r_accs r !! j with
                                 | Some ac => only (entry_of s v k (a_hold ac)) a
                                 | None => mu
                                 end
                     | None => mu
                     end
                 | QDecide _ _ _ _ h _ a => only (entry_of s v k h) a
                 | _ => mu
                 end) (s_thr s).
Definition held s v k : A :=
  mop (held_by_entries s v k) (mop (held_by_records s v k) (held_by_collections s v k)).

(** How many lists among [ids 0 .. ids (n-1)] contain [x]. *)
Definition count_in (ids : nat -> list nat) (n x : nat) : nat :=
  length (List.filter (fun i => bool_decide (x ∈ ids i)) (seq 0 n)).
Definition one_if (b : bool) : nat := if b then 1%nat else 0%nat.

(** An account of where every measurement is: [out i] are those in the [i]-th point output,
    [sup i] those in the [i]-th suppressed point, [pend] those still held. *)
Record account s (out sup : nat -> list nat) (pend : list nat) : Prop := {
  acc_out : forall i p, s_out s !! i = Some p -> made_of s p (out i);
  acc_sup : forall i p, s_drop s !! i = Some p -> made_of s p (sup i) /\ c_change c (p_view p) (p_agg p) = false;
  acc_pend : NoDup pend;
  acc_held : forall v k, held s v k =
               msum (fun x => match s_log s !! x with
                              | Some u => only (same_series v k (u_view u) (u_key u)) (value s x)
                              | None => mu
                              end) pend;
  (* a measurement of a delta view is in exactly one place *)
  acc_delta : forall x u, s_log s !! x = Some u -> vdelta c (u_view u) = true ->
               (count_in out (length (s_out s)) x + count_in sup (length (s_drop s)) x +
                one_if (bool_decide (x ∈ pend)) = 1)%nat;
  (* a measurement of a cumulative view is held for ever *)
  acc_cum : forall x u, s_log s !! x = Some u -> vdelta c (u_view u) = false -> x ∈ pend;
  acc_sup_delta : forall i p, s_drop s !! i = Some p -> vdelta c (p_view p) = true;
  (* successive points of a cumulative series only grow *)
  acc_grow : forall i j p p', (i < j)%nat -> s_out s !! i = Some p -> s_out s !! j = Some p' ->
               p_view p = p_view p' -> p_key p = p_key p' -> vdelta c (p_view p) = false ->
               forall x, x ∈ out i -> x ∈ out j
}.

(** What the call [t] recorded: stream and number of each of its measurements, in order. *)
Definition recorded_by s t : list (nat * c_num c) :=
  map (fun u => (u_view u, u_num u)) (List.filter (fun u => Nat.eqb (u_tid u) t) (s_log s)).

(** A call of an instrument that has not returned yet, and how many there are. *)
Definition flying (p : pc c) : bool :=
  match p with PRead _ _ _ | PWrite _ _ _ | PInit _ _ | PInitV _ _ _ | PUpd _ _ _ | PCount _ | PUnref _ => true | _ => false end.
Definition in_flight s : nat := length (List.filter flying (s_thr s)).
(** A call or a collection that has ended. *)
Definition ended (p : pc c) : bool := match p with PDone | QDone => true | _ => false end.

(** At no time have 2^32 or more measurements been made on a series record since it was last collected. *)
Definition calm (ls : list (label c)) : Prop :=
  forall l s i r, l `prefix_of` ls -> run (init c) l = Some s -> s_recs s !! i = Some r ->
    r_upd r - r_col r < 4294967296.

(** Reading a schedule, how often in a row collections have visited record [i] and found it idle:
    [(n, fresh)] where [fresh] says that a call has measured on it since it was last looked at.  A
    collection that finds a call in flight on a record it wanted to evict starts the count again. *)
Definition note (i : nat) s (l : label c) (g : nat * bool) : nat * bool :=
  match l with
  | LStep t _ =>
      match s_thr s !! t with
      | Some (PCount i') => if Nat.eqb i' i then (g.1, true) else g
      | Some (QLoad _ i') => if Nat.eqb i' i then (if g.2 then (0%nat, false) else (S g.1, false)) else g
      | Some (QScav _ i' false) => if Nat.eqb i' i then (0%nat, false) else g
      | _ => g
      end
  | _ => g
  end.
Fixpoint track (i : nat) s (ls : list (label c)) (g : nat * bool) : nat * bool :=
  match ls with
  | [] => g
  | l :: ls => match step s l with Some s' => track i s' ls (note i s l g) | None => g end
  end.
Definition idle_visits (ls : list (label c)) (i : nat) : nat := (track i (init c) ls (0%nat, false)).1.

(** A call that is using record [i]. *)
Definition uses (i : nat) (p : pc c) : bool :=
  match p with
  | PInit i' _ | PInitV i' _ _ | PUpd i' _ _ | PCount i' | PUnref i' => Nat.eqb i' i
  | _ => false
  end.

(** The attributes used on instrument [o] and the filtered attribute sets they give in view [v]. *)
Definition keys_of (ls : list (label c)) (o : nat) : list (c_K c) :=
  flat_map (fun l => match l with LObserve o' k _ => if Nat.eqb o' o then [k] else [] | _ => [] end) ls.
Definition fed_keys (ls : list (label c)) (v : nat) : list key :=
  flat_map (fun l => match l with
                     | LObserve o k _ => if existsb (Nat.eqb v) (iviews c o) then [c_vkey c v k] else []
                     | _ => []
                     end) ls.
(** The schedule stays below both cardinality limits (each leaves one place for the overflow series),
    and different attributes used on one instrument have different fingerprints. *)
Record fits (ls : list (label c)) : Prop := {
  fits_inst : forall o, Z.of_nat (length (remove_dups (map (c_fp c) (keys_of ls o)))) < c_ilimit c;
  fits_view : forall v, (v < length (c_views c))%nat -> (length (remove_dups (fed_keys ls v)) < vlimit c v)%nat;
  fits_fp : forall o (k k' : c_K c), k ∈ keys_of ls o -> k' ∈ keys_of ls o -> c_fp c k = c_fp c k' ->
              c_keq c k k' = true
}.

(** The measurements of a series, and their aggregate. *)
Definition ids_of s v k : list nat :=
  List.filter (fun x => match s_log s !! x with Some u => same_series v k (u_view u) (u_key u) | None => false end)
              (seq 0 (length (s_log s))).
Definition measured s v k : A := msum (value s) (ids_of s v k).
(** The combination of all points of a series. *)
Definition total (l : list (point c)) v k : A :=
  msum (fun p => only (same_series v k (p_view p) (p_key p)) (p_agg p)) l.

(** A collection by reader [rd], from [s0] to its end in [s], with no call in flight at its start and none
    begun before its end.  Other collections may run at the same time. *)
Record quiet (ls0 : list (label c)) s0 (rd : nat) (ls : list (label c)) s : Prop := {
  qc_start : run (init c) ls0 = Some s0;
  qc_run : run s0 (LCollect rd :: ls) = Some s;
  qc_none : forall t p, s_thr s0 !! t = Some p -> flying p = false;
  qc_calls : forall o (k : c_K c) n, LObserve o k n ∉ ls;
  qc_end : s_thr s !! length (s_thr s0) = Some QDone;
  qc_calm : calm (ls0 ++ LCollect rd :: ls)
}.

(** A call of an instrument. *)
Definition is_call (l : label c) : bool := match l with LObserve _ _ _ => true | _ => false end.
(** A step of thread [t] is possible. *)
Definition can_step s t : Prop := exists ch s', step s (LStep t ch) = Some s'.
(** Record [i] has been removed from memory. *)
Definition gone s i : Prop := exists r, s_recs s !! i = Some r /\ r_live r = false.
(** Output entry [h] has been removed from its view. *)
Definition dead s h : Prop := exists hd, s_holds s !! h = Some hd /\ h_live hd = false.
(** The collection at [p] is looking at record [i]. *)
Definition visiting i (p : pc c) : option job :=
  match p with
  | QLoad q i' | QTry q i' | QCas q i' | QScav q i' _ | QMove q i' _ _ _ | QMerge q i' _ _ _ _ | QRel q i' _ _ _ =>
      if Nat.eqb i' i then Some q else None
  | _ => None
  end.
(** The collection at [p] is looking at output entry [h]. *)
Definition deciding h (p : pc c) : bool :=
  match p with QPoint _ _ _ _ h' _ | QDecide _ _ _ _ h' _ _ => Nat.eqb h' h | _ => false end.
(** No record in memory refers to output entry [h]. *)
Definition unreferenced s h : Prop :=
  forall i r j a, s_recs s !! i = Some r -> r_live r = true -> r_accs r !! j = Some a -> a_hold a <> h.
(** View [v] belongs to reader [rd]. *)
Definition read_by (rd v : nat) : Prop := exists w, c_views c !! v = Some w /\ v_reader w = rd.
(** How many steps the call or collection [t] has taken. *)
Definition steps_of (ls : list (label c)) (t : nat) : nat :=
  length (List.filter (fun l => match l with LStep t' _ => Nat.eqb t' t | _ => false end) ls).

(** The aggregate of what a schedule's calls measured in series [k] of view [v], for aggregators that do not
    look at the order of measurements: one contribution for each call and each time its instrument feeds [v]. *)
Definition called (ls : list (label c)) v k : A :=
  msum (fun l => match l with
                 | LObserve o k' n =>
                     msum (fun v' => only (Nat.eqb v' v && bool_decide (c_vkey c v' k' = k)) (c_inj c 0%nat n)) (iviews c o)
                 | _ => mu
                 end) ls.
End spec.
Arguments read_by c _ _ : clear implicits.
