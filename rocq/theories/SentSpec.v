(** Words used to state what a user sees in the OTLP requests of a reader. *)
From Coq Require Import ZArith Bool String.
From stdpp Require Import base list option strings.
From Verif Require Import Base SyncModel SyncSpec Attr AggSync View Data Exp ExpSpec.
Local Open Scope Z_scope.

(** No slice among the values is empty. *)
Definition not_empty (v : value) : Prop := match v with VBools [] | VInts [] | VFloats [] | VStrings [] => False | _ => True end.
Definition no_empty_slices (s : list kv) : Prop := Forall (fun a => not_empty a.2) s.

(** It can be decided whether OTLP attributes say the same as an attribute set. *)
Fixpoint all2 {A B} (f : A -> B -> bool) (l : list A) (l' : list B) : bool :=
  match l, l' with
  | [], [] => true
  | a :: l, b :: l' => f a b && all2 f l l'
  | _, _ => false
  end.
Definition is_bool (b : bool) (p : pvalue) : bool := match p with PBool b' => Bool.eqb b' b | _ => false end.
Definition is_int (z : Z) (p : pvalue) : bool := match p with PInt z' => z' =? z | _ => false end.
Definition is_double (z : Z) (p : pvalue) : bool := match p with PDouble z' => z' =? z | _ => false end.
Definition is_str (s : string) (p : pvalue) : bool := match p with PStr s' => String.eqb s' s | _ => false end.
Definition says_b (v : value) (p : pvalue) : bool :=
  match v, p with
  | VBool b, _ => is_bool b p
  | VInt z, _ => is_int z p
  | VFloat z, _ => is_double z p
  | VString s, _ => is_str s p
  | VBools l, PSlice l' => all2 is_bool l l'
  | VInts l, PSlice l' => all2 is_int l l'
  | VFloats l, PSlice l' => all2 is_double l l'
  | VStrings l, PSlice l' => all2 is_str l l'
  | _, _ => false
  end.
Definition attrs_say_b (s : list kv) (d : list (string * pvalue)) : bool :=
  all2 (fun a p => String.eqb p.1 a.1 && says_b a.2 p.2) s d.
Lemma all2_spec {A B} (f : A -> B -> bool) (P : A -> B -> Prop) : (forall a b, f a b = true <-> P a b) -> forall l l', all2 f l l' = true <-> Forall2 P l l'.
Proof.
  intros E l. induction l as [|a l IH]; intros [|b l']; cbn.
  - split; [constructor|done].
  - split; [done|intros X; inversion X].
  - split; [done|intros X; inversion X].
  - rewrite andb_true_iff, E, IH. split; [intros [? ?]; by constructor|intros X; by inversion X].
Qed.
Lemma says_b_spec v p : says_b v p = true <-> says v p.
Proof.
  assert (B : forall b q, is_bool b q = true <-> q = PBool b).
  { intros b [b'| | | |]; cbn; try (split; [done|congruence]). rewrite Bool.eqb_true_iff. split; congruence. }
  assert (I : forall b q, is_int b q = true <-> q = PInt b).
  { intros b [|b'| | |]; cbn; try (split; [done|congruence]). rewrite Z.eqb_eq. split; congruence. }
  assert (D : forall b q, is_double b q = true <-> q = PDouble b).
  { intros b [| |b'| |]; cbn; try (split; [done|congruence]). rewrite Z.eqb_eq. split; congruence. }
  assert (S : forall b q, is_str b q = true <-> q = PStr b).
  { intros b [| | |b'|]; cbn; try (split; [done|congruence]). rewrite String.eqb_eq. split; congruence. }
  destruct v as [|b|z|z|s|l|l|l|l]; cbn [says_b].
  - split; [done|intros X; inversion X].
  - rewrite B. split; [intros ->; constructor|intros X; by inversion X].
  - rewrite I. split; [intros ->; constructor|intros X; by inversion X].
  - rewrite D. split; [intros ->; constructor|intros X; by inversion X].
  - rewrite S. split; [intros ->; constructor|intros X; by inversion X].
  - destruct p as [| | | |l']; try (split; [done|intros X; by inversion X]). rewrite (all2_spec _ _ B). split; [by constructor|intros X; by inversion X].
  - destruct p as [| | | |l']; try (split; [done|intros X; by inversion X]). rewrite (all2_spec _ _ I). split; [by constructor|intros X; by inversion X].
  - destruct p as [| | | |l']; try (split; [done|intros X; by inversion X]). rewrite (all2_spec _ _ D). split; [by constructor|intros X; by inversion X].
  - destruct p as [| | | |l']; try (split; [done|intros X; by inversion X]). rewrite (all2_spec _ _ S). split; [by constructor|intros X; by inversion X].
Qed.
Lemma attrs_say_b_spec s d : attrs_say_b s d = true <-> attrs_say s d.
Proof. apply all2_spec. intros a p. by rewrite andb_true_iff, String.eqb_eq, says_b_spec. Qed.

(** The integers that the data of a metric show, each with its attributes: the values of sums and gauges; and the counts of histograms. *)
Definition values_of (d : pdata) : list (list (string * pvalue) * Z) :=
  match d with
  | PSum _ _ l | PGauge l => flat_map (fun q => match pn_value q with PNInt z => [(pn_attrs q, z)] | PNDouble _ => [] end) l
  | _ => []
  end.
Definition counts_of (d : pdata) : list (list (string * pvalue) * Z) :=
  match d with
  | PHist _ l => map (fun q => (ph_attrs q, ph_count q)) l
  | PExp _ l => map (fun q => (pe_attrs q, pe_count q)) l
  | _ => []
  end.
(** Those of a request under this name and these attributes. *)
Definition under (k : list kv) (l : list (list (string * pvalue) * Z)) : list Z := flat_map (fun a => if attrs_say_b k a.1 then [a.2] else []) l.
Definition in_request (shown : pdata -> list (list (string * pvalue) * Z)) (name : string) (k : list kv) (x : pmetrics) : list Z :=
  flat_map (fun s => flat_map (fun m => if String.eqb (pm_name m) name then under k (shown (pm_data m)) else []) (ps_metrics s)) (px_scopes x).
Definition values : string -> list kv -> pmetrics -> list Z := in_request values_of.
Definition counts : string -> list kv -> pmetrics -> list Z := in_request counts_of.

(** A time of a collection that OTLP can hold. *)
Definition times_ok (sq : sequence) : Prop := a_time (sq_start sq) /\ a_time (sq_last sq) /\ a_time (sq_now sq).

Section spec.
Context (farm : string -> Z) (kinds : nat -> agg_kind) (keys : nat -> option (list string)) (views : list SyncModel.view).
Context (insts : list (list nat)) (periods ilimit : Z) (ignore : bool).
Notation c := (int_config farm kinds keys views insts periods ilimit ignore).
(** Every attribute that was passed has a type. *)
Definition typed_calls (ls : list (label c)) : Prop := forall o (l : list kv) n, LObserve (c:=c) o l n ∈ ls -> with_types l.
(** The streams of a reader have different names. *)
Definition distinct_names (desc : nat -> descriptor) (rd : nat) : Prop :=
  forall v v', read_by c rd v -> read_by c rd v' -> i_name (desc v) = i_name (desc v') -> v = v'.
(** The number of measurement [x]. *)
Definition measurement (s : state c) (x : nat) : Z := match s_log s !! x with Some u => u_num u | None => 0 end.
End spec.
