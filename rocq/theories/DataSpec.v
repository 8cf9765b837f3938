(** What a user reads from an output, and what they need to keep when they give it back. *)
From Coq Require Import ZArith Bool String.
From stdpp Require Import base list option strings.
From Verif Require Import Num Attr View Data.
Local Open Scope Z_scope.

(** What ranging over the slices shows: the resource; per scope its library; per instrument its descriptor and its points. *)
Definition reading : Type := string * list (scope * list (descriptor * list point)).
Definition read_instr (i : instr) : descriptor * list point := (in_desc i, vis (in_points i)).
Definition read_scope (s : oscope) : scope * list (descriptor * list point) := (os_lib s, map read_instr (vis (os_insts s))).
Definition read (m : metrics) : reading := (mt_res m, map read_scope (vis (mt_scopes m))).

(** The elements beyond the length of every slice have empty slices: nobody has shortened a slice by hand. *)
Definition untouched_instrs (s : slice instr) : Prop := Forall (fun i => vis (in_points i) = []) (hid s).
Definition untouched (m : metrics) : Prop :=
  Forall (fun s => untouched_instrs (os_insts s)) (vis (mt_scopes m)) /\
  Forall (fun s => vis (os_insts s) = [] /\ untouched_instrs (os_insts s)) (hid (mt_scopes m)).

(** All memory of a slice. *)
Definition mem {T} (s : slice T) : list T := vis s ++ hid s.
(** The memory cell at scope position i and instrument position j holds the aggregation a. *)
Definition holds (m : metrics) (i j : nat) (a : storage) : Prop :=
  exists s n p, mem (mt_scopes m) !! i = Some s /\ mem (os_insts s) !! j = Some n /\ p ∈ mem (in_points n) /\ pt_agg p = Some a.
(** The stream a reader outputs at that position. *)
Definition stream_at (ms : list pmeter) (i j : nat) : option collector := m ← ms !! i; pm_cols m !! j.
(** The memory of histograms at the position of a stream was made with the stream's own configuration, if it is of its type. *)
Definition fits (ms : list pmeter) (m : metrics) : Prop :=
  forall i j a k, holds m i j a -> stream_at ms i j = Some k -> dyn a = k_fam k -> carried a = config_of (k_fam k) (k_max k).
(** All memory was made by the streams at its position. *)
Definition own (ms : list pmeter) (m : metrics) : Prop :=
  forall i j a, holds m i j a -> exists k, stream_at ms i j = Some k /\ dyn a = k_fam k /\ carried a = config_of (k_fam k) (k_max k).

(** Every storage of a collector has the collector's type and configuration. *)
Definition typed (k : collector) : Prop :=
  Forall (fun e => dyn (e_sto e) = k_fam k /\ carried (e_sto e) = config_of (k_fam k) (k_max k)) (k_data k ++ k_prior k).
Definition typed_meters (ms : list pmeter) : Prop := Forall (fun m => Forall typed (pm_cols m)) ms.

(** Between two collections of one reader, meters and streams are only added, at the end. *)
Definition same_stream (a b : collector) : Prop := k_fam a = k_fam b /\ k_max a = k_max b.
Definition grows (ms ms' : list pmeter) : Prop :=
  forall i j k, stream_at ms i j = Some k -> exists k', stream_at ms' i j = Some k' /\ same_stream k k'.

(** C56: a storage that has seen nothing since it was emptied; an empty storage of the same type. *)
Definition unchanged (s : storage) : bool :=
  match s with
  | StSum _ (NInt z) => eqb z zero
  | StSum _ (NFloat f) => eqb f zero
  | StGauge _ stamp => stamp =? 0
  | StMMSC _ _ _ count => count =? 0
  | StHist _ _ l => bool_decide (length l = 0%nat)
  end.
Definition blank (s : storage) : storage :=
  let z n := match n with IntKind => NInt zero | FloatKind => NFloat zero end in
  match s with
  | StSum m v => StSum m (z (nkind_of v))
  | StGauge v _ => StGauge v 0
  | StMMSC _ _ sm _ => StMMSC (z (nkind_of sm)) (z (nkind_of sm)) (z (nkind_of sm)) 0
  | StHist n mx _ => StHist n mx []
  end.
(** How much more than before was observed for an attribute set, for the sums of asynchronous instruments; nothing if it is the same. *)
Definition more_than (prior : list entry) (e : entry) : option storage :=
  match filter (fun p => e_set p = e_set e) prior with
  | [] => Some (e_sto e)
  | p :: _ =>
      match e_sto e, e_sto p with
      | StSum m (NInt now), StSum _ (NInt before) => if eqb (sub now before) zero then None else Some (StSum m (NInt (sub now before)))
      | StSum m (NFloat now), StSum _ (NFloat before) => if eqb (sub now before) zero then None else Some (StSum m (NFloat (sub now before)))
      | _, _ => None
      end
  end.
(** The points of a stream. *)
Definition shown (k : collector) (sq : sequence) : list point :=
  match k_mode k with
  | StatefulSync | LowmemAsync => map (fun e => Point (e_set e) CumulativeTempo (Some (e_sto e)) (sq_start sq) (sq_now sq)) (k_data k)
  | LowmemSync => map (fun e => Point (e_set e) DeltaTempo (Some (e_sto e)) (sq_last sq) (sq_now sq)) (filter (fun e => unchanged (e_sto e) = false) (k_data k))
  | StatefulAsync => omap (fun e => (fun a => Point (e_set e) DeltaTempo (Some a) (sq_last sq) (sq_now sq)) <$> more_than (k_prior k) e) (k_data k)
  end.
(** What the stream holds after it: delta streams of synchronous instruments are emptied and forget the sets that nobody uses;
    asynchronous streams start again, and remember what was observed when they report differences.  The overflow set is kept. *)
Definition left_over (k : collector) : collector :=
  match k_mode k with
  | StatefulSync => k
  | LowmemSync =>
      Collector (k_desc k) (k_fam k) (k_max k) LowmemSync
        (map (fun e => Entry (e_set e) (blank (e_sto e)) (e_refs e)) (filter (fun e => unchanged (e_sto e) = false \/ e_refs e <> 0) (k_data k))) (k_prior k)
  | LowmemAsync => Collector (k_desc k) (k_fam k) (k_max k) LowmemAsync [] (k_prior k)
  | StatefulAsync =>
      Collector (k_desc k) (k_fam k) (k_max k) StatefulAsync
        (map (fun e => Entry (e_set e) (e_sto e) 0) (take 1 (filter (fun e => e_set e = new_set [("otel.metric.overflow", VBool true)]) (k_data k)))) (k_data k)
  end.
(** Only sums report differences of asynchronous instruments. *)
Definition differences_of_sums (k : collector) : Prop := k_mode k = StatefulAsync -> exists m n, k_fam k = FSum m n.
