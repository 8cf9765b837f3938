(** The attributes of measurements as memory: slices of the caller, read and written step by step while other goroutines measure.
    M stands for /repo/lightstep/sdk/metric. *)
From Coq Require Import ZArith Bool String.
From stdpp Require Import base list option strings.
From Verif Require Import Base SyncModel Attr.
Local Open Scope nat_scope.

(** ** Attributes given as options *)
(** WithAttributes and WithAttributeSet of the API.  metric.NewAddConfig and NewRecordConfig, called in M/syncinst.go:74-90 and not in /repo, merge
    the sets of the options; for a key in several of them the last one wins.  ToSlice (M/internal/syncstate/sync.go:348) is a new slice. *)
Inductive mopt := WithAttributes (l : list kv) | WithAttributeSet (l : list kv).
Definition op_config (opts : list mopt) : list kv :=
  fold_left (fun s o => new_set (s ++ new_set match o with WithAttributes l | WithAttributeSet l => l end)) opts [].

(** ** Memory *)
(** The attribute list of a record (sync.go:230-236): a copy, the caller's own slice, or nil. *)
Inductive held := Kept (l : list kv) | Lent (a : nat) | Dropped.
(** recordKV (sync.go:205-237): its instrument and fingerprint, its list, and the list its accumulator was made for, if it was made. *)
Record mrec := MRec { r_inst : nat; r_fp : Z; r_held : held; r_set : option (list kv) }.
(** Where a call is: before element i in TruncateAttributes, with the copy of the element, before and after the key is cut
    (M/sdkinstrument/performance.go:104-128); before element i in fingerprintAttributes (M/internal/syncstate/bykeyvalue.go:26-36); before
    acquireReadKV (124-142); in acquireNotfoundKV before the new record is filled and before acquireWriteKV (194-236); before readAccumulator
    (sync.go:274-295, 360); returned.  The update of the accumulator is in Conc (C63). *)
Inductive place :=
  | Trunc (i : nat)
  | TruncKey (i : nat) (a : kv)
  | TruncValue (i : nat) (a : kv)
  | Print (i : nat) (fp : Z)
  | Look (fp : Z)
  | Make (fp : Z)
  | Put (fp : Z) (x : held)
  | Init (r : nat)
  | Returned (r : nat).
(** A call: its instrument, the array of its slice, the variable [overflow] of acquireReadKV, and its place.  [c_given] is what the array held
    when the call began; the code does not have it. *)
Record mcall := MCall { c_inst : nat; c_arr : nat; c_given : list kv; c_over : bool; c_place : place }.
(** Arrays, with true for those the user has; records; the records in the map, newest first; calls. *)
Record mem := Mem { m_heap : list (list kv); m_user : list bool; m_recs : list mrec; m_map : list nat; m_calls : list mcall }.
Definition m_init : mem := Mem [] [] [] [] [].

Section mem.
(** farm.Fingerprint64; AttributeSizeLimit and IgnoreCollisions of the Performance. *)
Context (farm : string -> Z) (n : nat) (ignore : bool).

(** The elements of an array; updates of the parts of a state. *)
Definition array (s : mem) (a : nat) : list kv := default [] (m_heap s !! a).
Definition set_heap (s : mem) (h : list (list kv)) : mem := Mem h (m_user s) (m_recs s) (m_map s) (m_calls s).
Definition set_place (s : mem) (c : nat) (x : mcall) (p : place) : mem :=
  Mem (m_heap s) (m_user s) (m_recs s) (m_map s) (<[c := MCall (c_inst x) (c_arr x) (c_given x) (c_over x) p]> (m_calls s)).
Definition set_over (s : mem) (c : nat) (x : mcall) (p : place) : mem :=
  Mem (m_heap s) (m_user s) (m_recs s) (m_map s) (<[c := MCall (c_inst x) (c_arr x) (c_given x) true p]> (m_calls s)).
Definition set_recs (s : mem) (rs : list mrec) (m : list nat) : mem := Mem (m_heap s) (m_user s) rs m (m_calls s).
(** Reading through a reference. *)
Definition contents (s : mem) (x : held) : list kv := match x with Kept l => l | Lent a => array s a | Dropped => [] end.
(** The first record of an instrument with this fingerprint and, unless collisions are ignored, equal attributes (bykeyvalue.go:144-153, 222-231). *)
Definition find_rec (s : mem) (inst : nat) (fp : Z) (eq : list kv -> bool) : option nat :=
  List.find (fun r => match m_recs s !! r with Some x => Nat.eqb (r_inst x) inst && Z.eqb (r_fp x) fp && (ignore || eq (contents s (r_held x))) | None => false end) (m_map s).
(** The next step of a call (performance.go:104-128, bykeyvalue.go:26-36, 124-236, computeAttrsUnderLock and initialize in sync.go:282-313).  [over] answers whether the cardinality limit is reached (bykeyvalue.go:165); any answer is possible.  Reading or writing
    a key or a value is one step; so is a comparison of lists.  A record in the map can always be referenced, see [MDrop]. *)
Definition go (s : mem) (c : nat) (over : bool) : option mem :=
  x ← m_calls s !! c;
  match c_place x with
  | Trunc i =>
      match array s (c_arr x) !! i with
      | Some a => Some (set_place s c x (TruncKey i a))
      | None => Some (set_place s c x (Print 0 0))
      end
  | TruncKey i a =>
      let h := if Nat.ltb n (String.length a.1) then alter (alter (fun b : kv => (cut n a.1, b.2)) i) (c_arr x) (m_heap s) else m_heap s in
      Some (set_place (set_heap s h) c x (TruncValue i a))
  | TruncValue i a =>
      let v := truncate_value n a.2 in
      let h := if bool_decide (v = a.2) then m_heap s else alter (alter (fun b : kv => (b.1, v)) i) (c_arr x) (m_heap s) in
      Some (set_place (set_heap s h) c x (Trunc (S i)))
  | Print i fp =>
      match array s (c_arr x) !! i with
      | Some a => Some (set_place s c x (Print (S i) (u64 (fp + mix (farm a.1) (fp_value farm a.2))%Z)))
      | None => Some (set_place s c x (Look fp))
      end
  | Look fp =>
      match find_rec s (c_inst x) fp (attributes_equal (array s (c_arr x))) with
      | Some r => Some (set_place s c x (Init r))
      | None =>
          if over then
            let fp' := fingerprint farm overflow_attrs in
            match find_rec s (c_inst x) fp' (attributes_equal overflow_attrs) with
            | Some r => Some (set_over s c x (Init r))
            | None => Some (set_over s c x (Make fp'))
            end
          else Some (set_place s c x (Make fp))
      end
  | Make fp =>
      let l := if c_over x then Kept overflow_attrs else if ignore then Lent (c_arr x) else Kept (array s (c_arr x)) in
      Some (set_place s c x (Put fp l))
  | Put fp l =>
      match find_rec s (c_inst x) fp (fun old => attributes_equal old (contents s l)) with
      | Some r => Some (set_place s c x (Init r))
      | None =>
          let r := length (m_recs s) in
          Some (set_place (set_recs s (m_recs s ++ [MRec (c_inst x) fp l None]) (r :: m_map s)) c x (Init r))
      end
  | Init r =>
      y ← m_recs s !! r;
      match r_set y with
      | Some _ => Some (set_place s c x (Returned r))                              (* once.Do has run *)
      | None =>
          let y' := MRec (r_inst y) (r_fp y) (if ignore then Dropped else r_held y) (Some (contents s (r_held y))) in
          Some (set_place (set_recs s (<[r := y']> (m_recs s)) (m_map s)) c x (Returned r))
      end
  | Returned _ => None
  end.

Definition in_flight (x : mcall) : bool := match c_place x with Returned _ => false | _ => true end.
Definition holds (r : nat) (x : mcall) : bool := match c_place x with Init r' => Nat.eqb r r' | _ => false end.
(** The user makes a slice; writes an element, but not while a call is running that was given the slice; calls AddWithKeyValues or RecordWithKeyValues
    with a slice, or Add or Record with options (M/syncinst.go:92-158, sync.go:321-360; a MeasurementProcessor is left out); a step of a call;
    a collection takes a record out of the map that no call holds (the protocol is in SyncModel, C05). *)
Inductive mact := MNew (l : list kv) | MWrite (a i : nat) (x : kv) | MKeyValues (inst a : nat) | MOptions (inst : nat) (opts : list mopt) | MGo (c : nat) (over : bool) | MDrop (r : nat).
Definition first_place : place := match n with O => Print 0 0 | _ => Trunc 0 end.
Definition mstep (s : mem) (a : mact) : option mem :=
  match a with
  | MNew l => Some (Mem (m_heap s ++ [l]) (m_user s ++ [true]) (m_recs s) (m_map s) (m_calls s))
  | MWrite a i x =>
      match m_user s !! a with
      | Some true => if existsb (fun c => in_flight c && Nat.eqb (c_arr c) a) (m_calls s) then None else Some (set_heap s (alter (<[i := x]>) a (m_heap s)))
      | _ => None
      end
  | MKeyValues inst a =>
      match m_user s !! a with
      | Some true => Some (Mem (m_heap s) (m_user s) (m_recs s) (m_map s) (m_calls s ++ [MCall inst a (array s a) false first_place]))
      | _ => None
      end
  | MOptions inst opts =>
      let l := op_config opts in
      Some (Mem (m_heap s ++ [l]) (m_user s ++ [false]) (m_recs s) (m_map s) (m_calls s ++ [MCall inst (length (m_heap s)) l false first_place]))
  | MGo c over => go s c over
  | MDrop r => if existsb (holds r) (m_calls s) then None else Some (set_recs s (m_recs s) (List.filter (fun r' => negb (Nat.eqb r r')) (m_map s)))
  end.
Fixpoint mrun (s : mem) (l : list mact) : option mem := match l with [] => Some s | a :: l => s' ← mstep s a; mrun s' l end.
End mem.
