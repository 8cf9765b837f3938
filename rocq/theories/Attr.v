(** Attribute lists: fingerprints, equality, sets, filters and truncation.
    M stands for /repo/lightstep/sdk/metric. *)
From Coq Require Import ZArith Bool String Ascii.
From stdpp Require Import base list option strings.
From Verif Require Import Base SyncModel.
Local Open Scope Z_scope.

(** attribute.Value, as the code below distinguishes it (go.opentelemetry.io/otel/attribute is not in /repo).
    A float64 is its 64-bit pattern.  A string is its bytes. *)
Inductive value :=
  | VInvalid
  | VBool (b : bool)
  | VInt (z : Z)
  | VFloat (bits : Z)
  | VString (s : string)
  | VBools (l : list bool)
  | VInts (l : list Z)
  | VFloats (l : list Z)
  | VStrings (l : list string).
#[global] Instance value_dec : EqDecision value.
Proof. unfold EqDecision, Decision. repeat decide equality; apply (decide (_ = _)). Defined.
(** attribute.KeyValue. *)
Notation kv := (string * value)%type.

(** Go's == on float64 given as bit patterns: NaN is different from itself, the two zeros are equal. *)
Definition f_nan (b : Z) : bool := ((b / 2 ^ 52) mod 2048 =? 2047) && negb (b mod 2 ^ 52 =? 0).
Definition f_zero (b : Z) : bool := b mod 2 ^ 63 =? 0.
Definition f_eqb (a b : Z) : bool := negb (f_nan a) && negb (f_nan b) && ((a =? b) || (f_zero a && f_zero b)).

(** Mix (M/internal/fprint/fprint.go:29-37), on uint64. *)
Definition u64 (z : Z) : Z := z mod 2 ^ 64.
Definition mul64 : Z := 0x9ddfea08eb382d69.
Definition mix (x y : Z) : Z :=
  let a := u64 (Z.lxor x y * mul64) in
  let a := Z.lxor a (Z.shiftr a 47) in
  let b := u64 (Z.lxor y a * mul64) in
  let b := Z.lxor b (Z.shiftr b 47) in
  u64 (b * mul64).

Section fingerprint.
(** farm.Fingerprint64 on the bytes of a string (fprint.go:54-69); not in /repo, any function will do. *)
Context (farm : string -> Z).
(** fprint.go:39-52 *)
Definition fp_bool (b : bool) : Z := if b then 1 else 0.
Definition fp_int (z : Z) : Z := u64 z.
Definition fp_float (bits : Z) : Z := bits.
(** fingerprintSlice (M/internal/syncstate/bykeyvalue.go:38-44) *)
Definition fp_slice {T} (f : T -> Z) (l : list T) : Z := fold_left (fun fp x => u64 (fp + f x)) l 0.
(** fingerprintValue (bykeyvalue.go:46-67) *)
Definition fp_value (v : value) : Z :=
  match v with
  | VInvalid => 0
  | VBool b => fp_bool b
  | VInt z => fp_int z
  | VFloat b => fp_float b
  | VString s => farm s
  | VBools l => fp_slice fp_bool l
  | VInts l => fp_slice fp_int l
  | VFloats l => fp_slice fp_float l
  | VStrings l => fp_slice farm l
  end.
(** fingerprintAttributes (bykeyvalue.go:26-36) *)
Definition fingerprint (l : list kv) : Z :=
  fold_left (fun fp a => u64 (fp + mix (farm a.1) (fp_value a.2))) l 0.
End fingerprint.

(** sliceEqual (bykeyvalue.go:69-79) *)
Fixpoint slice_eq {T} (eq : T -> T -> bool) (a b : list T) : bool :=
  match a, b with
  | [], [] => true
  | x :: a, y :: b => eq x y && slice_eq eq a b
  | _, _ => false
  end.
(** One iteration of attributesEqual (bykeyvalue.go:87-114).  Scalars are compared as Go structs, so floats by bits. *)
Definition value_eq (a b : value) : bool :=
  match a, b with
  | VInvalid, VInvalid => true
  | VBool x, VBool y => Bool.eqb x y
  | VInt x, VInt y => x =? y
  | VFloat x, VFloat y => x =? y
  | VString x, VString y => String.eqb x y
  | VBools x, VBools y => slice_eq Bool.eqb x y
  | VInts x, VInts y => slice_eq Z.eqb x y
  | VFloats x, VFloats y => slice_eq f_eqb x y
  | VStrings x, VStrings y => slice_eq String.eqb x y
  | _, _ => false
  end.
(** attributesEqual (bykeyvalue.go:82-118) *)
Definition attributes_equal (a b : list kv) : bool :=
  slice_eq (fun x y => String.eqb x.1 y.1 && value_eq x.2 y.2) a b.

(** The byte order of strings (Go's < on strings). *)
Fixpoint str_lt (a b : string) : bool :=
  match a, b with
  | EmptyString, String _ _ => true
  | _, EmptyString => false
  | String x a, String y b =>
      if N.ltb (N_of_ascii x) (N_of_ascii y) then true
      else if N.ltb (N_of_ascii y) (N_of_ascii x) then false else str_lt a b
  end.

(** attribute.NewSet, as called in sync.go:293: a list sorted by key, without duplicates, in which the last value passed
    for a key wins.  It is a library function; this is its documented result, built by inserting one attribute at a time. *)
Fixpoint put (a : kv) (l : list kv) : list kv :=
  match l with
  | [] => [a]
  | b :: l' => if String.eqb a.1 b.1 then a :: l' else if str_lt a.1 b.1 then a :: b :: l' else b :: put a l'
  end.
Definition new_set (l : list kv) : list kv := fold_left (fun s a => put a s) l [].

(** keyFilter.filter (M/internal/viewstate/viewstate.go:597-615). *)
Definition key_filter (keys : list string) (a : kv) : bool := existsb (String.eqb a.1) keys.
(** isValidAttribute (M/internal/viewstate/base_instrument.go:109-111). *)
Definition valid_attr (a : kv) : bool := negb (String.eqb a.1 "").
(** applyKeysFilter (base_instrument.go:113-140); attribute.Set.Filter keeps the attributes that pass.  The diagnostic is not
    modelled here. *)
Definition apply_filter (keys : option (list string)) (s : list kv) : list kv :=
  let invalid := existsb (fun a => negb (valid_attr a)) s in
  match keys with
  | None => if invalid then List.filter valid_attr s else s
  | Some ks => if invalid then List.filter (fun a => valid_attr a && key_filter ks a) s else List.filter (key_filter ks) s
  end.

(** Performance.TruncateAttributes (M/sdkinstrument/performance.go:99-130).  The Go code changes the caller's slice in place and returns it. *)
Definition cut (n : nat) (s : string) : string := if Nat.ltb n (String.length s) then substring 0 n s else s.
Definition truncate_value (n : nat) (v : value) : value :=
  match v with
  | VString s => VString (cut n s)
  | VStrings l => VStrings (map (cut n) l)
  | _ => v
  end.
Definition truncate (n : nat) (l : list kv) : list kv :=
  match n with
  | O => l
  | _ => map (fun a => (cut n a.1, truncate_value n a.2)) l
  end.

(** The attributes under which Observe looks for a record (M/internal/syncstate/sync.go:342-355); [proc] is the user's
    MeasurementProcessor, if any. *)
Definition observe_attrs (n : nat) (proc : option (list kv -> list kv)) (l : list kv) : list kv :=
  let l := truncate n l in
  match proc with Some f => f l | None => l end.

(** OverflowAttributes (M/internal/pipeline/overflow.go:21-26). *)
Definition overflow_attrs : list kv := [("otel.metric.overflow"%string, VBool true)].

(** Two sets are the same map key in Go when they are equal with == on their elements.  We use a canonical form: the two
    zeros are identified in float slices.  Simplification: a NaN in a float slice is not equal to itself in Go; here it is. *)
Definition canon_float (b : Z) : Z := if f_zero b then 0 else b.
Definition canon_value (v : value) : value := match v with VFloats l => VFloats (map canon_float l) | _ => v end.
Definition canon (s : list kv) : list kv := map (fun a => (a.1, canon_value a.2)) s.

(** The synchronous model (SyncModel) with these attributes.  [keys v] is the key list of view [v], if it has one. *)
Definition attr_config (farm : string -> Z) (mon : cmon) (num : Type) (inj : nat -> num -> mon) (change : nat -> mon -> bool)
    (keys : nat -> option (list string)) (views : list view) (insts : list (list nat)) (periods ilimit : Z) (ignore : bool) : config :=
  Config mon num inj change (list kv) (fingerprint farm) attributes_equal (list kv) _
         (fun v l => canon (apply_filter (keys v) (new_set l)))
         overflow_attrs (new_set overflow_attrs) views insts periods ilimit ignore.
