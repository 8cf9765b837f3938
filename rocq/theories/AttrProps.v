(** Properties C10 (for the attributes of the code), C11, C33 and C34. *)
From Coq Require Import ZArith Bool String Ascii.
From stdpp Require Import base list option strings.
From Verif Require Import Base SyncModel SyncSpec SyncFacts Attr AttrSpec AttrProofs.
Local Open Scope Z_scope.

(** Specification: [value_of l k] is the last value passed for key [k] in the list [l] (AttrSpec). *)

(** * C34: what a view reports of an attribute list *)
(** Exactly the attributes with a non-empty key, in the view's key list if it has one, with the last value passed. *)
Theorem C34_reported_attributes : forall keys l k v,
  (k, v) ∈ apply_filter keys (new_set l) <->
  value_of l k = Some v /\ k <> ""%string /\ match keys with None => True | Some ks => k ∈ ks end.
Proof.
  intros keys l k v. rewrite apply_filter_elem. cbn. rewrite (sorted_assoc _ _ _ (new_set_sorted l)), new_set_assoc. done.
Qed.
(** They are in the order of their keys, so no key appears twice. *)
Theorem C34_sorted : forall keys l, sorted (apply_filter keys (new_set l)).
Proof. intros. apply apply_filter_sorted, new_set_sorted. Qed.
Theorem C34_idempotent : forall keys s, apply_filter keys (apply_filter keys s) = apply_filter keys s.
Proof. exact apply_filter_idem. Qed.
(** For distinct keys, the value reported is the one passed. *)
Theorem C34_values : forall l k v, NoDup (map fst l) -> (value_of l k = Some v <-> (k, v) ∈ l).
Proof. intros l k v N. exact (value_of_elem l k v N). Qed.
Example C34_case :
  let l := [("b", VInt 1); ("", VBool true); ("a", VString "x"); ("b", VInt 2); ("c", VInt 3)]%string in
  apply_filter (Some ["b"; "a"; ""]%string) (new_set l) = [("a", VString "x"); ("b", VInt 2)]%string /\
  apply_filter None (new_set l) = [("a", VString "x"); ("b", VInt 2); ("c", VInt 3)]%string.
Proof. vm_compute. done. Qed.

(** * C11: order of attributes *)
Theorem C11_order : forall farm keys l l', NoDup (map fst l) -> l ≡ₚ l' ->
  fingerprint farm l = fingerprint farm l' /\
  apply_filter keys (new_set l) = apply_filter keys (new_set l').
Proof.
  intros farm keys l l' N P. split.
  - unfold fingerprint. by apply (fold_u64_perm (fun a => mix (farm a.1) (fp_value farm a.2))).
  - by rewrite (new_set_perm l l' N P).
Qed.
(** The fingerprint alone needs no distinct keys. *)
Theorem C11_fingerprint : forall farm l l', l ≡ₚ l' -> fingerprint farm l = fingerprint farm l'.
Proof. intros farm l l' P. unfold fingerprint. by apply (fold_u64_perm (fun a => mix (farm a.1) (fp_value farm a.2))). Qed.
(** With a repeated key the order matters: the last value wins. *)
Theorem C11_repeated_keys_refuted : exists l l', l ≡ₚ l' /\ new_set l <> new_set l'.
Proof. exists [("a", VInt 1); ("a", VInt 2)]%string, [("a", VInt 2); ("a", VInt 1)]%string. split; [constructor|]. vm_compute. done. Qed.
Example C11_case : let l := [("a", VInt 1); ("b", VInt 2); ("c", VFloats [0])]%string in let l' := [("c", VFloats [0]); ("a", VInt 1); ("b", VInt 2)]%string in
  NoDup (map fst l) /\ l ≡ₚ l' /\ attributes_equal l l' = false.
Proof.
  cbn zeta. split; [|split].
  - apply (bool_decide_unpack _). vm_compute. done.
  - symmetry. apply (Permutation_cons_append [("a", VInt 1); ("b", VInt 2)]%string).
  - vm_compute. done.
Qed.

(** * C10 for these attributes *)
(** In the synchronous model with the attributes, fingerprints (over any string hash) and filters of the code and collision
    checking on, each measurement is recorded on the view's filtering of the set of its caller's attributes, or on
    the view's filtering of the overflow attributes, or on the overflow set. *)
Theorem C10_attributes : forall farm mon num inj change keys views insts periods ilimit ls s x u,
  let c := attr_config farm mon num inj change keys views insts periods ilimit false in
  run (init c) ls = Some s -> s_log s !! x = Some u ->
  exists o k, calls ls !! u_tid u = Some (LObserve (c:=c) o k (u_num u)) /\
    (u_key u = canon (apply_filter (keys (u_view u)) (new_set k)) \/
     u_key u = canon (apply_filter (keys (u_view u)) (new_set overflow_attrs)) \/ u_key u = overflow_attrs).
Proof.
  intros farm mon num inj change keys views insts periods ilimit ls s x u c R Hx.
  apply (right_series (c:=c) ls s x u R Hx); [done|]. intros v k k' H. by apply equal_same_series.
Qed.
(** Below the limits it is never an overflow series. *)
Theorem C10_attributes_fit : forall farm mon num inj change keys views insts periods ilimit ls s x u,
  let c := attr_config farm mon num inj change keys views insts periods ilimit false in
  run (init c) ls = Some s -> fits ls -> s_log s !! x = Some u ->
  exists o k, calls ls !! u_tid u = Some (LObserve (c:=c) o k (u_num u)) /\
    u_key u = canon (apply_filter (keys (u_view u)) (new_set k)).
Proof.
  intros farm mon num inj change keys views insts periods ilimit ls s x u c R F Hx.
  apply (right_series_fits (c:=c) ls s x u R F Hx); [done|]. intros v k k' H. by apply equal_same_series.
Qed.
(** Attribute lists that compare equal give the same series in every view. *)
Theorem C10_equal_same_series : forall keys a b, attributes_equal a b = true ->
  canon (apply_filter keys (new_set a)) = canon (apply_filter keys (new_set b)).
Proof. exact equal_same_series. Qed.
(** A view whose key list leaves out the overflow key cannot be told apart from one without attributes: the instrument's
    overflow is folded into that series. *)
Theorem C10_overflow_visible_refuted : exists keys l,
  apply_filter keys [("otel.metric.overflow", VBool true)]%string = apply_filter keys (new_set l) /\ value_of l "otel.metric.overflow" = None.
Proof. exists (Some ["a"]%string), []. vm_compute. done. Qed.
(** Without NaN in float slices, the converse holds for the lists themselves: the lists are compared exactly, up to the sign of zero in float
    slices.  So a call finds the record an equal list made. *)
Theorem C10_compared : forall a b, attributes_equal a b = true <-> canon a = canon b /\ forall x, x ∈ a -> no_nan x.2.
Proof.
  intros a b. split.
  - intros H. split; [by apply equal_canon|by eapply equal_no_nan].
  - intros [E N]. by apply equal_complete.
Qed.
Theorem C10_same_list : forall l, (forall x, x ∈ l -> no_nan x.2) -> attributes_equal l l = true.
Proof. intros l H. by apply equal_complete. Qed.
Example C10_compared_case : let l := [("a", VFloats [0; 2 ^ 63]); ("b", VStrings ["x"; "y"])]%string in
  (forall x, x ∈ l -> no_nan x.2) /\ attributes_equal l [("a", VFloats [2 ^ 63; 0]); ("b", VStrings ["x"; "y"])]%string = true /\
  attributes_equal l [("a", VFloats [0; 0]); ("b", VStrings ["x"])]%string = false.
Proof.
  cbn zeta. split; [|vm_compute; done]. intros x Hx. repeat (apply elem_of_cons in Hx as [->|Hx]); [|done|by apply elem_of_nil in Hx].
  intros b Hb. repeat (apply elem_of_cons in Hb as [->|Hb]); [apply f_nan_spec; vm_compute; reflexivity..|by apply elem_of_nil in Hb].
Qed.
(** A list with a NaN in a float slice does not compare equal to itself, so each call makes a new record. *)
Theorem C10_nan_slice_refuted : exists l, attributes_equal l l = false.
Proof. exists [("a"%string, VFloats [0x7ff8000000000001])]. vm_compute. done. Qed.
Example C10_attr_case :
  let c := attr_config (fun s => Z.of_nat (String.length s)) Zmon Z (fun _ n => n) (fun _ a => negb (a =? 0)) (fun _ => Some ["a"%string])
             [View true 0 9] [[0%nat]] 2 9 false in
  let ls := LObserve (c:=c) 0 [("a", VInt 1); ("b", VInt 2)]%string 5 :: replicate 7 (LStep 0 0) in
  match run (init c) ls with Some s => map (fun u => (u_key u, u_num u)) (s_log s) = [([("a", VInt 1)]%string, 5)] | None => False end.
Proof. vm_compute. done. Qed.

(** * C33: truncation *)
Theorem C33_bounded : forall n l a, (1 <= n)%nat -> a ∈ truncate n l -> within n a.
Proof.
  intros [|n] l a L; [lia|]. cbn [truncate]. intros H. apply elem_of_list_fmap in H as ([k v] & -> & _). split; [apply cut_length|].
  cbn [snd]. destruct v; cbn [truncate_value]; try done; [apply cut_length|]. intros t Ht. apply elem_of_list_fmap in Ht as (r & -> & _). apply cut_length.
Qed.
Theorem C33_unchanged : forall n l, (forall a, a ∈ l -> within n a) -> truncate n l = l.
Proof.
  intros [|n] l H; [done|]. cbn [truncate]. rewrite <- (map_id l) at 2. apply map_ext_in. intros [k v] Hin. apply elem_of_list_In in Hin.
  destruct (H _ Hin) as [H1 H2]. cbn in H1. cbn [fst snd]. rewrite (cut_id _ _ H1). f_equal.
  destruct v; cbn in *; try done; [by rewrite cut_id|]. f_equal. rewrite <- (map_id l0) at 2. apply map_ext_in. intros t Ht.
  apply cut_id, H2. by apply elem_of_list_In.
Qed.
Theorem C33_idempotent : forall n l, truncate n (truncate n l) = truncate n l.
Proof.
  intros [|n] l; [done|]. apply C33_unchanged. intros a. apply C33_bounded. lia.
Qed.
(** Each key, each string and each member of a string slice is cut to its first [n] bytes, in place; nothing else changes. *)
Theorem C33_exact : forall n l i k v, (1 <= n)%nat -> l !! i = Some (k, v) -> exists k' v', truncate n l !! i = Some (k', v') /\
  shortened n k k' /\
  match v, v' with
  | VString s, VString s' => shortened n s s'
  | VStrings t, VStrings t' => Forall2 (shortened n) t t'
  | _, _ => v' = v
  end.
Proof.
  intros [|n] l i k v L H; [lia|].
  assert (C : forall s, shortened (S n) s (cut (S n) s)).
  { intros s. split; [|apply cut_prefix]. unfold cut. destruct (Nat.ltb_spec (S n) (String.length s)); [rewrite substring_length; lia|lia]. }
  exists (cut (S n) k), (truncate_value (S n) v). split; [|split; [apply C|]].
  - cbn [truncate]. change (map ?f l) with (f <$> l). rewrite list_lookup_fmap, H. done.
  - destruct v; cbn [truncate_value]; try done. clear -C. induction l0 as [|s t IH]; constructor; [apply C|done].
Qed.
Theorem C33_count : forall n l, length (truncate n l) = length l.
Proof. intros [|n] l; [done|apply map_length]. Qed.
(** A limit of zero means none. *)
Theorem C33_off : forall l, truncate 0 l = l.
Proof. done. Qed.
(** Without a MeasurementProcessor, this bounds what Observe records under. *)
Theorem C33_observe : forall n l a, (1 <= n)%nat -> a ∈ observe_attrs n None l -> within n a.
Proof. intros n l a L. exact (C33_bounded n l a L). Qed.
(** A MeasurementProcessor runs after truncation, so what it adds is not bounded. *)
Theorem C33_processor_refuted : exists n proc l a, (1 <= n)%nat /\ a ∈ observe_attrs n (Some proc) l /\ ~ within n a.
Proof.
  exists 2%nat, (fun l => ("long", VInt 1)%string :: l), [], ("long"%string, VInt 1). split; [lia|]. split; [left|]. intros [H _]. cbn in H. lia.
Qed.
(** Truncated keys may coincide; then one of the attributes is lost. *)
Theorem C33_keys_stay_distinct_refuted : exists n l k v, NoDup (map fst l) /\ (k, v) ∈ l /\
  forall k', (k', v) ∉ new_set (truncate n l).
Proof.
  exists 2%nat, [("abc", VInt 1); ("abd", VInt 2)]%string, "abc"%string, (VInt 1). split; [|split].
  - apply (bool_decide_unpack _). vm_compute. done.
  - left.
  - intros k'. vm_compute. intros H. apply elem_of_cons in H as [H|H]; [congruence|]. by apply elem_of_nil in H.
Qed.
Example C33_case : truncate 3 [("abcd", VString "wxyz"); ("k", VStrings ["ab"; "abcd"]); ("toolong", VInt 12345)]%string =
  [("abc", VString "wxy"); ("k", VStrings ["ab"; "abc"]); ("too", VInt 12345)]%string.
Proof. vm_compute. done. Qed.


Print Assumptions C34_reported_attributes.
Print Assumptions C34_sorted.
Print Assumptions C34_idempotent.
Print Assumptions C34_values.
Print Assumptions C11_order.
Print Assumptions C11_fingerprint.
Print Assumptions C11_repeated_keys_refuted.
Print Assumptions C10_attributes.
Print Assumptions C10_attributes_fit.
Print Assumptions C10_equal_same_series.
Print Assumptions C10_overflow_visible_refuted.
Print Assumptions C10_compared.
Print Assumptions C10_same_list.
Print Assumptions C10_nan_slice_refuted.
Print Assumptions C33_bounded.
Print Assumptions C33_unchanged.
Print Assumptions C33_idempotent.
Print Assumptions C33_exact.
Print Assumptions C33_count.
Print Assumptions C33_off.
Print Assumptions C33_observe.
Print Assumptions C33_processor_refuted.
Print Assumptions C33_keys_stay_distinct_refuted.
