(** The instrumentation of the Go runtime: names, registration and callback.  R stands for /repo/lightstep/instrumentation/runtime.
    A string is its bytes, as in Go. *)
From Coq Require Import ZArith Bool String Ascii.
From stdpp Require Import base list option strings pretty.
From Verif Require Import Num Attr View.
Local Open Scope Z_scope.
Local Open Scope string_scope.

(** Functions of Go's package strings, and slices of strings; None is the panic of an index out of range. *)
Fixpoint str_drop (n : nat) (s : string) : string := match n, s with S m, String _ r => str_drop m r | _, _ => s end.
Fixpoint str_take (n : nat) (s : string) : string := match n, s with S m, String c r => String c (str_take m r) | _, _ => "" end.
Definition has_suffix (x s : string) : bool := (String.length x <=? String.length s)%nat && String.eqb (str_drop (String.length s - String.length x) s) x.
Fixpoint count_char (c : ascii) (s : string) : nat := match s with "" => 0 | String d r => (if Ascii.eqb c d then 1 else 0) + count_char c r end%nat.
Fixpoint cut_at (sep s : string) : string * string :=
  if String.prefix sep s then ("", str_drop (String.length sep) s)
  else match s with "" => ("", "") | String c r => let '(a, b) := cut_at sep r in (String c a, b) end.
Fixpoint replace_char (c d : ascii) (s : string) : string := match s with "" => "" | String e r => String (if Ascii.eqb e c then d else e) (replace_char c d r) end.
Fixpoint split_char (c : ascii) (s : string) : list string :=
  match s with
  | "" => [""]
  | String d r => if Ascii.eqb d c then "" :: split_char c r
                  else match split_char c r with x :: l => String d x :: l | [] => [String d ""] end
  end.
Definition slice_from (s : string) (i : nat) : option string := if (i <=? String.length s)%nat then Some (str_drop i s) else None.
(** s[i:j], with j an int that may be negative. *)
Definition slice (s : string) (i j : Z) : option string :=
  if ((0 <=? i) && (i <=? j) && (j <=? Z.of_nat (String.length s)))%Z then Some (str_take (Z.to_nat (j - i)%Z) (str_drop (Z.to_nat i) s)) else None.

(** builtinKind (R/descriptor.go:33-40) and builtinMetricFamily (42-46), without the counter of matches, which is only written. *)
Inductive bkind := BSkip | BCounter | BObjectBytes | BUpDown | BGauge | BHistogram.
#[global] Instance bkind_eq_dec : EqDecision bkind. Proof. solve_decision. Defined.
Record family := Family { fa_pattern : string; fa_kind : bkind }.

(** toOTelName (74-76), toOTelNameAndStatedUnit (69-72) and attributeName (79-84). *)
Definition name_prefix : string := "process.runtime.go".
Definition to_otel (s : string) : string := name_prefix ++ replace_char "/" "." s.
Definition to_otel_unit (s : string) : string * string := let '(on, un) := cut_at ":" s in (to_otel on, un).
Definition attribute_name (order : nat) : string := if (order =? 0)%nat then "class" else "class" ++ pretty (S order).

(** The result of findMatch: a panic, an error, or mname, munit, descPattern, attrs and kind. *)
Record matched := Matched { m_name : string; m_unit : string; m_desc : string; m_attrs : list kv; m_kind : bkind }.
Inductive found := FPanic | FError (e : string) | FOk (m : matched).

(** findFamily (209-239).  The texts of errors are shortened. *)
Definition family_matches (name : string) (f : family) : bool :=
  let pat := fa_pattern f in
  if (count_char "*" pat =? 0)%nat && String.eqb name pat then true
  else let '(pfx, sfx) := cut_at "*" pat in
       (String.length pat <? String.length name)%nat && String.prefix pfx name && has_suffix sfx name.
Fixpoint scan_families (name : string) (fs : list family) (n : nat) (last : option family) : option family + string :=
  match fs with
  | [] => if (n =? 0)%nat then inr "builtin unmatched" else if (1 <? n)%nat then inr "builtin overmatched" else inl last
  | f :: r =>
      if (1 <? count_char "*" (fa_pattern f))%nat then inr "too many wildcards"
      else if family_matches name f then scan_families name r (S n) (Some f) else scan_families name r n last
  end.
Definition find_family (fs : list family) (name : string) : option family + string := scan_families name fs 0 None.

(** The units (176-185) and the names (187-204). *)
Definition fix_unit (u : string) : string :=
  if String.eqb u "bytes" then "By" else if String.eqb u "seconds" then "s" else if String.eqb u "" then "" else "{" ++ u ++ "}".
Definition fix_name (n u : string) : string :=
  if has_suffix ".classes" n then
    let s := str_take (String.length n - String.length "classes") n in
    if String.eqb u "By" then s ++ "usage" else if String.eqb u "{cpu-seconds}" then s ++ "time" else n
  else n.
Definition finish (mname munit desc : string) (attrs : list kv) (k : bkind) : found :=
  let u := fix_unit munit in FOk (Matched (fix_name mname u) u desc attrs k).
(** The attributes of the class names (164-167). *)
Fixpoint class_attrs (order : nat) (vals : list string) : list kv :=
  match vals with [] => [] | v :: r => (attribute_name order, VString v) :: class_attrs (S order) r end.
(** findMatch (129-207).  A nil family cannot be returned without an error; None is the panic of its use. *)
Definition find_match (fs : list family) (goname : string) : found :=
  match find_family fs goname with
  | inr e => FError e
  | inl None => FPanic
  | inl (Some fam) =>
      let pat := fa_pattern fam in
      if (count_char "*" pat =? 0)%nat then
        let '(n, u) := to_otel_unit goname in finish n u goname [] (fa_kind fam)
      else if has_suffix ":*" pat then
        let '(n, u) := to_otel_unit goname in
        if String.eqb u "objects" then finish (n ++ "." ++ u) "" goname [] BCounter else finish n u goname [] BCounter
      else
        let '(pfx, sfx) := cut_at "/*:" pat in
        match slice_from goname (String.length pfx) with
        | None => FPanic
        | Some a =>
            match slice a 1 (Z.of_nat (String.length a) - Z.of_nat (String.length sfx) - 1)%Z with
            | None => FPanic
            | Some b =>
                let vals := split_char "/" b in
                match list.last vals with
                | None => FPanic
                | Some v =>
                    if String.eqb v "total" then FOk (Matched "" "" "" [] BSkip)
                    else finish (to_otel pfx) sfx pat (class_attrs 0 vals) (fa_kind fam)
                end
            end
        end
  end.

(** expectRuntimeMetrics (R/defs.go:17-47), with the constructors of families (R/descriptor.go:97-127). *)
Definition runtime_families : list family :=
  [ Family "/godebug/non-default-behavior/*:events" BSkip
  ; Family "/cpu/classes/*:cpu-seconds" BCounter
  ; Family "/gc/cycles/*:gc-cycles" BCounter
  ; Family "/memory/classes/*:bytes" BUpDown
  ; Family "/gc/scan/*:bytes" BUpDown
  ; Family "/gc/heap/allocs-by-size:bytes" BHistogram
  ; Family "/gc/heap/frees-by-size:bytes" BHistogram
  ; Family "/gc/pauses:seconds" BHistogram
  ; Family "/sched/latencies:seconds" BHistogram
  ; Family "/sched/pauses/stopping/gc:seconds" BHistogram
  ; Family "/sched/pauses/stopping/other:seconds" BHistogram
  ; Family "/sched/pauses/total/gc:seconds" BHistogram
  ; Family "/sched/pauses/total/other:seconds" BHistogram
  ; Family "/gc/heap/allocs:*" BObjectBytes
  ; Family "/gc/heap/frees:*" BObjectBytes
  ; Family "/cgo/go-to-c-calls:calls" BCounter
  ; Family "/gc/heap/tiny/allocs:objects" BCounter
  ; Family "/sync/mutex/wait/total:seconds" BCounter
  ; Family "/gc/gogc:percent" BGauge
  ; Family "/gc/gomemlimit:bytes" BGauge
  ; Family "/gc/heap/goal:bytes" BGauge
  ; Family "/gc/heap/live:bytes" BGauge
  ; Family "/gc/limiter/last-enabled:gc-cycle" BGauge
  ; Family "/gc/stack/starting-size:bytes" BGauge
  ; Family "/sched/gomaxprocs:threads" BGauge
  ; Family "/gc/heap/objects:objects" BUpDown
  ; Family "/sched/goroutines:goroutines" BUpDown ].

(** metrics.Description and metrics.ValueKind of runtime/metrics, as far as they are read here. *)
Inductive rkind := RUint64 | RFloat64 | RHistogram | RBad.
Record rdesc := RDesc { rd_name : string; rd_kind : rkind }.
(** One entry of samples, instruments and instAttrs (R/builtin.go:110-112). *)
Record entry := Entry { en_sample : string; en_inst : descriptor; en_attrs : list kv }.
(** What register does: it panics (in findMatch), it returns the error of the meter, or it goes on to register the callback for the
    entries; [hs] are the names reported to the error handler. *)
Inductive reg := RegPanic (hs : list string) | RegError (hs : list string) (e : string) | RegOk (hs : list string) (es : list entry).

Section register.
(** The error of the creation of an instrument. *)
Context (create : descriptor -> option string).
(** The switch of R/builtin.go:143-172: None is a nil instrument. *)
Definition instrument (m : matched) (k : rkind) : option descriptor :=
  let mk ik := match k with
               | RUint64 => Some (Descriptor (m_name m) ik IntKind (m_desc m ++ " from runtime/metrics") (m_unit m))
               | RFloat64 => Some (Descriptor (m_name m) ik FloatKind (m_desc m ++ " from runtime/metrics") (m_unit m))
               | _ => None
               end in
  match m_kind m with
  | BCounter => mk AsyncCounter
  | BUpDown => mk AsyncUpDownCounter
  | BGauge => mk AsyncGauge
  | _ => None
  end.
(** register (107-190), up to the registration of the callback. *)
Fixpoint register (fs : list family) (all : list rdesc) (hs : list string) (es : list entry) : reg :=
  match all with
  | [] => RegOk hs es
  | d :: r =>
      match find_match fs (rd_name d) with
      | FPanic => RegPanic hs
      | FError _ => register fs r (hs ++ [rd_name d])%list es
      | FOk m =>
          match m_kind m with
          | BSkip => register fs r hs es
          | BHistogram => register fs r (match rd_kind d with RHistogram => hs | _ => (hs ++ [m_name m])%list end) es
          | _ =>
              match instrument m (rd_kind d) with
              | None => register fs r (hs ++ [m_name m])%list es
              | Some i =>
                  match create i with
                  | Some e => RegError hs e
                  | None => register fs r hs (es ++ [Entry (rd_name d) i (m_attrs m)])%list
                  end
              end
          end
      end
  end.
End register.

(** metrics.Value. *)
Inductive rvalue := VUint64 (z : Z) | VFloat64 (bits : Z) | VHistogram | VBad.
(** A call of the observer: the instrument, the number and the attributes. *)
Inductive obsv := ObsInt (i : descriptor) (z : Z) (a : list kv) | ObsFloat (i : descriptor) (bits : Z) (a : list kv).
(** The callback (192-208): what was observed, and how it ended: None is a panic of the type assertion, Some false an error. *)
Fixpoint observe_all (read : string -> rvalue) (es : list entry) : list obsv * option bool :=
  match es with
  | [] => ([], Some true)
  | e :: r =>
      match read (en_sample e) with
      | VUint64 z => match i_num (en_inst e) with
                     | IntKind => let '(o, x) := observe_all read r in (ObsInt (en_inst e) (wrap z) (en_attrs e) :: o, x)
                     | FloatKind => ([], None)
                     end
      | VFloat64 b => match i_num (en_inst e) with
                      | FloatKind => let '(o, x) := observe_all read r in (ObsFloat (en_inst e) b (en_attrs e) :: o, x)
                      | IntKind => ([], None)
                      end
      | _ => ([], Some false)
      end
  end.
