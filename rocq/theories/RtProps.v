(** Properties of the instrumentation of the Go runtime: C46 and C52. *)
From Coq Require Import ZArith Bool String Ascii Lia.
From stdpp Require Import base list option strings pretty.
From Verif Require Import Num AggProofs Attr View Rt RtSpec RtProofs.
Local Open Scope Z_scope.
Local Open Scope string_scope.
Local Arguments String.append : simpl nomatch.

(** The families are those of the tables. *)
Lemma families_ok : forallb starred_once runtime_families = true /\ apart runtime_families = true.
Proof. vm_compute. auto. Qed.
Definition bkind_of (k : kind) : bkind := match k with AsyncCounter => BCounter | AsyncUpDownCounter => BUpDown | _ => BGauge end.
Ltac cases X := rewrite ?elem_of_cons, ?elem_of_nil in X; repeat match type of X with _ \/ _ => destruct X as [X|X] end; try done.
Lemma family_elem f : existsb (fun g => String.eqb (fa_pattern g) (fa_pattern f) && bool_decide (fa_kind g = fa_kind f)) runtime_families = true -> f ∈ runtime_families.
Proof.
  intros X. apply existsb_exists in X as (g & Hg & E). apply andb_true_iff in E as [E1 E2]. apply String.eqb_eq in E1. apply bool_decide_eq_true in E2.
  apply elem_of_list_In. destruct f, g; cbn in *; by subst.
Qed.
Lemma single_family path u name unit k : (path, u, name, unit, k) ∈ singles -> Family (path ++ ":" ++ u) (bkind_of k) ∈ runtime_families /\
  free_of ":" path /\ free_of "*" (path ++ ":" ++ u) /\ to_otel path = name /\ has_suffix ".classes" name = false /\ fix_unit u = unit /\ instrument_kind (bkind_of k) = Some k.
Proof.
  intros X. assert (Q : forallb (fun '(path, u, name, unit, k) => existsb (fun g => String.eqb (fa_pattern g) (path ++ ":" ++ u) && bool_decide (fa_kind g = bkind_of k)) runtime_families &&
    (count_char ":" path =? 0)%nat && (count_char "*" (path ++ ":" ++ u) =? 0)%nat && String.eqb (to_otel path) name && negb (has_suffix ".classes" name) && String.eqb (fix_unit u) unit &&
    bool_decide (instrument_kind (bkind_of k) = Some k)) singles = true) by (vm_compute; reflexivity).
  rewrite forallb_forall in Q. apply elem_of_list_In in X. specialize (Q _ X). cbn beta iota in Q. rewrite !andb_true_iff in Q. destruct Q as ((((((Q1 & Q2) & Q3) & Q4) & Q5) & Q6) & Q7).
  apply Nat.eqb_eq, free_count in Q2. apply Nat.eqb_eq, free_count in Q3. apply String.eqb_eq in Q4. apply negb_true_iff in Q5. apply String.eqb_eq in Q6. apply bool_decide_eq_true in Q7.
  split; [by apply family_elem|]. done.
Qed.
Lemma histogram_family p : p ∈ histograms -> Family p BHistogram ∈ runtime_families /\ free_of "*" p /\ exists a b, p = a ++ ":" ++ b /\ free_of ":" a.
Proof.
  intros X. assert (Q : forallb (fun p => existsb (fun g => String.eqb (fa_pattern g) p && bool_decide (fa_kind g = BHistogram)) runtime_families && (count_char "*" p =? 0)%nat &&
    (let '(a, b) := cut_at ":" p in String.eqb p (a ++ ":" ++ b) && (count_char ":" a =? 0)%nat)) histograms = true) by (vm_compute; reflexivity).
  rewrite forallb_forall in Q. apply elem_of_list_In in X. specialize (Q _ X). cbn beta in Q. destruct (cut_at ":" p) as [a b]. rewrite !andb_true_iff in Q. destruct Q as ((Q1 & Q2) & Q3 & Q4).
  apply Nat.eqb_eq, free_count in Q2. apply String.eqb_eq in Q3. apply Nat.eqb_eq, free_count in Q4. split; [by apply (family_elem (Family p BHistogram))|]. split; [done|]. by exists a, b.
Qed.
Lemma pair_family path name : (path, name) ∈ pairs -> Family (path ++ ":*") BObjectBytes ∈ runtime_families /\ free_of ":" path /\ free_of "*" (path ++ ":") /\
  count_char "*" (path ++ ":*") = 1%nat /\ has_suffix ":*" (path ++ ":*") = true /\ to_otel path = name /\ has_suffix ".classes" name = false /\ has_suffix ".classes" (name ++ ".objects") = false.
Proof.
  intros X. assert (Q : forallb (fun '(path, name) => existsb (fun g => String.eqb (fa_pattern g) (path ++ ":*") && bool_decide (fa_kind g = BObjectBytes)) runtime_families &&
    (count_char ":" path =? 0)%nat && (count_char "*" (path ++ ":") =? 0)%nat && (count_char "*" (path ++ ":*") =? 1)%nat && has_suffix ":*" (path ++ ":*") && String.eqb (to_otel path) name &&
    negb (has_suffix ".classes" name) && negb (has_suffix ".classes" (name ++ ".objects"))) pairs = true) by (vm_compute; reflexivity).
  rewrite forallb_forall in Q. apply elem_of_list_In in X. specialize (Q _ X). cbn beta iota in Q. rewrite !andb_true_iff in Q. destruct Q as (((((((Q1 & Q2) & Q3) & Q4) & Q5) & Q6) & Q7) & Q8).
  apply Nat.eqb_eq, free_count in Q2. apply Nat.eqb_eq, free_count in Q3. apply Nat.eqb_eq in Q4. apply String.eqb_eq in Q6. apply negb_true_iff in Q7. apply negb_true_iff in Q8.
  split; [by apply (family_elem (Family (path ++ ":*") BObjectBytes))|]. done.
Qed.
Lemma class_family path u name unit k : (path, u, name, unit, k) ∈ classes -> Family (path ++ "/*:" ++ u) (bkind_of k) ∈ runtime_families /\ free_of "*" (path ++ "/") /\
  cut_at "/*:" (path ++ "/*:" ++ u) = (path, u) /\ count_char "*" (path ++ "/*:" ++ u) = 1%nat /\ has_suffix ":*" (path ++ "/*:" ++ u) = false /\
  fix_unit u = unit /\ fix_name (to_otel path) unit = name /\ instrument_kind (bkind_of k) = Some k.
Proof.
  intros X. assert (Q : forallb (fun '(path, u, name, unit, k) => existsb (fun g => String.eqb (fa_pattern g) (path ++ "/*:" ++ u) && bool_decide (fa_kind g = bkind_of k)) runtime_families &&
    (count_char "*" (path ++ "/") =? 0)%nat && bool_decide (cut_at "/*:" (path ++ "/*:" ++ u) = (path, u)) && (count_char "*" (path ++ "/*:" ++ u) =? 1)%nat && negb (has_suffix ":*" (path ++ "/*:" ++ u)) &&
    String.eqb (fix_unit u) unit && String.eqb (fix_name (to_otel path) unit) name && bool_decide (instrument_kind (bkind_of k) = Some k)) classes = true) by (vm_compute; reflexivity).
  rewrite forallb_forall in Q. apply elem_of_list_In in X. specialize (Q _ X). cbn beta iota in Q. rewrite !andb_true_iff in Q. destruct Q as (((((((Q1 & Q2) & Q3) & Q4) & Q5) & Q6) & Q7) & Q8).
  apply Nat.eqb_eq, free_count in Q2. apply bool_decide_eq_true in Q3. apply Nat.eqb_eq in Q4. apply negb_true_iff in Q5. apply String.eqb_eq in Q6. apply String.eqb_eq in Q7. apply bool_decide_eq_true in Q8.
  split; [by apply (family_elem (Family (path ++ "/*:" ++ u) (bkind_of k)))|]. done.
Qed.
Lemma ignored_family path u : (path, u) ∈ ignored -> Family (path ++ "/*:" ++ u) BSkip ∈ runtime_families /\ free_of "*" (path ++ "/") /\
  cut_at "/*:" (path ++ "/*:" ++ u) = (path, u) /\ count_char "*" (path ++ "/*:" ++ u) = 1%nat /\ has_suffix ":*" (path ++ "/*:" ++ u) = false.
Proof.
  intros X. unfold ignored in X. cases X. injection X as -> ->. split; [by left|]. split; [apply free_count; vm_compute; reflexivity|]. repeat split; vm_compute; reflexivity.
Qed.
Lemma families_tables f : f ∈ runtime_families ->
  (exists path u name unit k, (path, u, name, unit, k) ∈ singles /\ f = Family (path ++ ":" ++ u) (bkind_of k)) \/
  (exists p, p ∈ histograms /\ f = Family p BHistogram) \/ (exists path name, (path, name) ∈ pairs /\ f = Family (path ++ ":*") BObjectBytes) \/
  (exists path u name unit k, (path, u, name, unit, k) ∈ classes /\ f = Family (path ++ "/*:" ++ u) (bkind_of k)) \/
  (exists path u, (path, u) ∈ ignored /\ f = Family (path ++ "/*:" ++ u) BSkip).
Proof.
  intros X. assert (Q : forallb (fun f => existsb (fun '(path, u, _, _, k) => String.eqb (fa_pattern f) (path ++ ":" ++ u) && bool_decide (fa_kind f = bkind_of k)) singles ||
    existsb (fun p => String.eqb (fa_pattern f) p && bool_decide (fa_kind f = BHistogram)) histograms || existsb (fun '(path, _) => String.eqb (fa_pattern f) (path ++ ":*") && bool_decide (fa_kind f = BObjectBytes)) pairs ||
    existsb (fun '(path, u, _, _, k) => String.eqb (fa_pattern f) (path ++ "/*:" ++ u) && bool_decide (fa_kind f = bkind_of k)) classes ||
    existsb (fun '(path, u) => String.eqb (fa_pattern f) (path ++ "/*:" ++ u) && bool_decide (fa_kind f = BSkip)) ignored) runtime_families = true) by (vm_compute; reflexivity).
  rewrite forallb_forall in Q. apply elem_of_list_In in X. specialize (Q _ X). cbn beta in Q. rewrite !orb_true_iff, !existsb_exists in Q. destruct f as [pat kd]. cbn [fa_pattern fa_kind] in Q.
  destruct Q as [[[[Q|Q]|Q]|Q]|Q].
  - destruct Q as ([[[[path u] name] unit] k] & Hx & E). apply andb_true_iff in E as [E1 E2]. apply String.eqb_eq in E1. apply bool_decide_eq_true in E2. apply elem_of_list_In in Hx. left. exists path, u, name, unit, k. split; [done|]. by f_equal.
  - destruct Q as (p & Hx & E). apply andb_true_iff in E as [E1 E2]. apply String.eqb_eq in E1. apply bool_decide_eq_true in E2. apply elem_of_list_In in Hx. right; left. exists p. split; [done|]. by f_equal.
  - destruct Q as ([path name] & Hx & E). apply andb_true_iff in E as [E1 E2]. apply String.eqb_eq in E1. apply bool_decide_eq_true in E2. apply elem_of_list_In in Hx. right; right; left. exists path, name. split; [done|]. by f_equal.
  - destruct Q as ([[[[path u] name] unit] k] & Hx & E). apply andb_true_iff in E as [E1 E2]. apply String.eqb_eq in E1. apply bool_decide_eq_true in E2. apply elem_of_list_In in Hx. right; right; right; left. exists path, u, name, unit, k. split; [done|]. by f_equal.
  - destruct Q as ([path u] & Hx & E). apply andb_true_iff in E as [E1 E2]. apply String.eqb_eq in E1. apply bool_decide_eq_true in E2. apply elem_of_list_In in Hx. right; right; right; right. exists path, u. split; [done|]. by f_equal.
Qed.
Lemma find_runtime f name : f ∈ runtime_families -> matches (fa_pattern f) name -> find_family runtime_families name = inl (Some f).
Proof. intros Hf M. apply find_family_one; [apply families_ok|]. by apply apart_unique; [apply families_ok|..]. Qed.
Lemma matches_classes path u mid : free_of "*" (path ++ "/") -> (2 <= String.length mid)%nat -> matches (path ++ "/*:" ++ u) (path ++ "/" ++ mid ++ ":" ++ u).
Proof. intros F L. right. exists (path ++ "/"), (":" ++ u), mid. split; [by rewrite <- app_assoc_s|]. split; [done|]. split; [done|]. by rewrite <- app_assoc_s. Qed.
Lemma finish_plain n u d a k : has_suffix ".classes" n = false -> finish n u d a k = FOk (Matched n (fix_unit u) d a k).
Proof. intros E. unfold finish, fix_name. by rewrite E. Qed.

(** ** C46 *)
(** What is documented happens. *)
Theorem C46_documented name o : documented name o -> shows (find_match runtime_families name) o.
Proof.
  intros D. destruct D as [path u name unit k X|path u name unit k x unit' X Nx U|p x X|path name X|path name u unit X Nu L U|path u name unit k cs last X La Nt F L|path u name unit k cs X La F|path u mid X L].
  - destruct (single_family _ _ _ _ _ X) as (Hf & F1 & F2 & E1 & E2 & E3 & E4). assert (M : find_family runtime_families (path ++ ":" ++ u ++ "") = inl (Some (Family (path ++ ":" ++ u) (bkind_of k)))).
    { apply find_runtime; [done|]. left. split; [done|]. exists "". by rewrite !app_nil_s. }
    pose proof (match_plain _ path u "" (Family (path ++ ":" ++ u) (bkind_of k)) F1 (proj1 (free_count _ _) F2) M) as Q. rewrite !app_nil_s in Q. rewrite Q, E1, finish_plain by done. cbn. eexists. split; [reflexivity|]. cbn. by rewrite E3.
  - destruct (single_family _ _ _ _ _ X) as (Hf & F1 & F2 & E1 & E2 & E3 & E4). assert (M : find_family runtime_families (path ++ ":" ++ u ++ x) = inl (Some (Family (path ++ ":" ++ u) (bkind_of k)))).
    { apply find_runtime; [done|]. left. split; [done|]. exists x. cbn. by rewrite <- app_assoc_s. }
    rewrite (match_plain _ path u x (Family (path ++ ":" ++ u) (bkind_of k)) F1 (proj1 (free_count _ _) F2) M). rewrite E1, finish_plain by done. eexists. split; [reflexivity|]. cbn. by rewrite (ucum_fun _ _ U).
  - destruct (histogram_family _ X) as (Hf & F1 & a & b & -> & F2). assert (M : find_family runtime_families (a ++ ":" ++ b ++ x) = inl (Some (Family (a ++ ":" ++ b) BHistogram))).
    { apply find_runtime; [done|]. left. split; [done|]. exists x. cbn. by rewrite <- app_assoc_s. }
    pose proof (match_plain _ a b x (Family (a ++ ":" ++ b) BHistogram) F2 (proj1 (free_count _ _) F1) M) as Q. replace ((a ++ ":" ++ b) ++ x) with (a ++ ":" ++ b ++ x) by (by rewrite <- app_assoc_s). rewrite Q. unfold finish. by eexists.
  - destruct (pair_family _ _ X) as (Hf & F1 & F2 & C & S & E1 & E2 & E3). assert (M : find_family runtime_families (path ++ ":" ++ "objects") = inl (Some (Family (path ++ ":*") BObjectBytes))).
    { apply find_runtime; [done|]. right. exists (path ++ ":"), "", "objects". split; [by rewrite <- app_assoc_s|]. split; [done|]. split; [cbn; lia|by rewrite <- app_assoc_s]. }
    change (path ++ ":objects") with (path ++ ":" ++ "objects"). rewrite (match_pair _ path "objects" (Family (path ++ ":*") BObjectBytes) F1 C S M). cbn [String.eqb]. rewrite E1. change (String.eqb "objects" "objects") with true. cbn iota.
    rewrite finish_plain by done. by eexists.
  - destruct (pair_family _ _ X) as (Hf & F1 & F2 & C & S & E1 & E2 & E3). assert (M : find_family runtime_families (path ++ ":" ++ u) = inl (Some (Family (path ++ ":*") BObjectBytes))).
    { apply find_runtime; [done|]. right. exists (path ++ ":"), "", u. split; [by rewrite <- app_assoc_s|]. split; [done|]. split; [done|]. by rewrite app_nil_s, <- app_assoc_s. }
    rewrite (match_pair _ path u (Family (path ++ ":*") BObjectBytes) F1 C S M). destruct (String.eqb_spec u "objects"); [done|]. rewrite E1, finish_plain by done. eexists. split; [reflexivity|]. cbn. by rewrite (ucum_fun _ _ U).
  - destruct (class_family _ _ _ _ _ X) as (Hf & F1 & Cu & C & S & E1 & E2 & E3).
    assert (M : find_family runtime_families (path ++ "/" ++ joined "/" cs ++ ":" ++ u) = inl (Some (Family (path ++ "/*:" ++ u) (bkind_of k)))) by (apply find_runtime; [done|by apply matches_classes]).
    assert (Nc : cs <> []) by (by intros ->). rewrite (match_classes _ path _ u (Family (path ++ "/*:" ++ u) (bkind_of k)) Cu C S M), split_joined, La by done. destruct (String.eqb_spec last "total"); [done|]. unfold finish. rewrite E1, E2. eexists. split; [reflexivity|]. cbn [m_kind m_name m_unit m_attrs].
    split; [done|]. split; [done|]. split; [done|]. rewrite class_attrs_spec. done.
  - destruct (class_family _ _ _ _ _ X) as (Hf & F1 & Cu & C & S & E1 & E2 & E3). assert (Nc : cs <> []) by (by intros ->).
    assert (L : (2 <= String.length (joined "/" cs))%nat).
    { apply last_Some in La as (l' & ->). clear. induction l' as [|y l' IH]; [cbn; lia|]. destruct (l' ++ ["total"])%list as [|z l] eqn:E; [by destruct l'|]. cbn [app]. rewrite E. change (joined "/" (y :: z :: l)) with (y ++ String "/" (joined "/" (z :: l))). rewrite len_app. cbn [String.length]. lia. }
    assert (M : find_family runtime_families (path ++ "/" ++ joined "/" cs ++ ":" ++ u) = inl (Some (Family (path ++ "/*:" ++ u) (bkind_of k)))) by (apply find_runtime; [done|by apply matches_classes]).
    rewrite (match_classes _ path _ u (Family (path ++ "/*:" ++ u) (bkind_of k)) Cu C S M), split_joined, La by done. by eexists.
  - destruct (ignored_family _ _ X) as (Hf & F1 & Cu & C & S).
    assert (M : find_family runtime_families (path ++ "/" ++ mid ++ ":" ++ u) = inl (Some (Family (path ++ "/*:" ++ u) BSkip))) by (apply find_runtime; [done|by apply matches_classes]).
    rewrite (match_classes _ path _ u (Family (path ++ "/*:" ++ u) BSkip) Cu C S M). destruct (list.last (split_char "/" mid)) as [v|] eqn:E; [|apply last_None in E; by destruct (split_nonempty "/" mid)].
    destruct (String.eqb v "total"); [by eexists|]. unfold finish. by eexists.
Qed.
Lemma described name nm unit a k m : documented name (OShown nm unit a k) -> find_match runtime_families name = FOk m -> describes name nm a (m_desc m ++ " from runtime/metrics").
Proof.
  intros D. inversion D as [path u name' unit' k' X|path u name' unit0 k' x unit' X Nx U| |path name' X|path name' u unit' X Nu L U|path u name' unit' k' cs last X La Nt F L| |]; subst.
  - destruct (single_family _ _ _ _ _ X) as (Hf & F1 & F2 & E1 & E2 & E3 & E4). assert (M : find_family runtime_families (path ++ ":" ++ u ++ "") = inl (Some (Family (path ++ ":" ++ u) (bkind_of k)))).
    { apply find_runtime; [done|]. left. split; [done|]. exists "". by rewrite !app_nil_s. }
    pose proof (match_plain _ path u "" (Family (path ++ ":" ++ u) (bkind_of k)) F1 (proj1 (free_count _ _) F2) M) as Q. rewrite !app_nil_s in Q. rewrite Q, E1, finish_plain by done. intros [= <-]. by left.
  - destruct (single_family _ _ _ _ _ X) as (Hf & F1 & F2 & E1 & E2 & E3 & E4). assert (M : find_family runtime_families (path ++ ":" ++ u ++ x) = inl (Some (Family (path ++ ":" ++ u) (bkind_of k)))).
    { apply find_runtime; [done|]. left. split; [done|]. exists x. cbn. by rewrite <- app_assoc_s. }
    rewrite (match_plain _ path u x (Family (path ++ ":" ++ u) (bkind_of k)) F1 (proj1 (free_count _ _) F2) M). rewrite E1, finish_plain by done. intros [= <-]. by left.
  - destruct (pair_family _ _ X) as (Hf & F1 & F2 & C & S & E1 & E2 & E3). assert (M : find_family runtime_families (path ++ ":" ++ "objects") = inl (Some (Family (path ++ ":*") BObjectBytes))).
    { apply find_runtime; [done|]. right. exists (path ++ ":"), "", "objects". split; [by rewrite <- app_assoc_s|]. split; [done|]. split; [cbn; lia|by rewrite <- app_assoc_s]. }
    change (path ++ ":objects") with (path ++ ":" ++ "objects"). rewrite (match_pair _ path "objects" (Family (path ++ ":*") BObjectBytes) F1 C S M). cbn [String.eqb]. rewrite E1. change (String.eqb "objects" "objects") with true. cbn iota.
    rewrite finish_plain by done. intros [= <-]. by left.
  - destruct (pair_family _ _ X) as (Hf & F1 & F2 & C & S & E1 & E2 & E3). assert (M : find_family runtime_families (path ++ ":" ++ u) = inl (Some (Family (path ++ ":*") BObjectBytes))).
    { apply find_runtime; [done|]. right. exists (path ++ ":"), "", u. split; [by rewrite <- app_assoc_s|]. split; [done|]. split; [done|]. by rewrite app_nil_s, <- app_assoc_s. }
    rewrite (match_pair _ path u (Family (path ++ ":*") BObjectBytes) F1 C S M). destruct (String.eqb_spec u "objects"); [done|]. rewrite E1, finish_plain by done. intros [= <-]. by left.
  - destruct (class_family _ _ _ _ _ X) as (Hf & F1 & Cu & C & S & E1 & E2 & E3).
    assert (M : find_family runtime_families (path ++ "/" ++ joined "/" cs ++ ":" ++ u) = inl (Some (Family (path ++ "/*:" ++ u) (bkind_of k)))) by (apply find_runtime; [done|by apply matches_classes]).
    assert (Nc : cs <> []) by (by intros ->). rewrite (match_classes _ path _ u (Family (path ++ "/*:" ++ u) (bkind_of k)) Cu C S M), split_joined, La by done. destruct (String.eqb_spec last "total"); [done|]. unfold finish.
    intros [= <-]. right. split; [destruct cs; done|]. exists path, u, unit, k. split; [exact X|]. done.
Qed.
(** Nothing else happens. *)
Lemma matched_documented f name : f ∈ runtime_families -> matches (fa_pattern f) name -> exists o, documented name o.
Proof.
  intros Hf M. destruct (families_tables f Hf) as [(path & u & nm & unit & k & X & ->)|[(p & X & ->)|[(path & nm & X & ->)|[(path & u & nm & unit & k & X & ->)|(path & u & X & ->)]]]]; cbn [fa_pattern] in M.
  - destruct (single_family _ _ _ _ _ X) as (_ & F1 & F2 & _). destruct M as [(_ & x & ->)|(a & b & mid & E & _)]; [|by destruct (F2 a b)]. rewrite <- !app_assoc_s. destruct (decide (x = "")) as [->|N].
    + rewrite app_nil_s. eexists. by eapply doc_single.
    + eexists. eapply doc_single_longer; [done|done|]. apply ucum_fix.
  - destruct (histogram_family _ X) as (_ & F1 & _). destruct M as [(_ & x & ->)|(a & b & mid & E & _)]; [|by destruct (F1 a b)]. eexists. by apply doc_histogram.
  - destruct (pair_family _ _ X) as (_ & F1 & F2 & C & _). destruct M as [(F & _)|(a & b & mid & E & F & L & ->)]; [apply free_count in F; congruence|].
    assert (a = path ++ ":" /\ b = "") as [-> ->].
    { assert (Q : cut_at "*" (a ++ String "*" b) = cut_at "*" ((path ++ ":") ++ String "*" "")) by (f_equal; rewrite <- app_assoc_s; symmetry; exact E). rewrite !cut_first in Q by done. by injection Q. }
    rewrite app_nil_s, <- app_assoc_s. destruct (decide (mid = "objects")) as [->|N]; eexists; [by eapply doc_objects|]. eapply doc_bytes; [done|done|done|apply ucum_fix].
  - destruct (class_family _ _ _ _ _ X) as (_ & F1 & _ & C & _). destruct M as [(F & _)|(a & b & mid & E & F & L & ->)]; [apply free_count in F; congruence|].
    assert (a = path ++ "/" /\ b = ":" ++ u) as [-> ->].
    { assert (Q : cut_at "*" (a ++ String "*" b) = cut_at "*" ((path ++ "/") ++ String "*" (":" ++ u))) by (f_equal; rewrite <- app_assoc_s; symmetry; exact E). rewrite !cut_first in Q by done. by injection Q. }
    rewrite <- app_assoc_s. destruct (joined_split "/" mid) as [J S]. pose proof (split_nonempty "/" mid) as N. rewrite <- J. destruct (list.last (split_char "/" mid)) as [v|] eqn:Ev; [|by apply last_None in Ev].
    destruct (decide (v = "total")) as [->|Nv]; eexists; [by eapply doc_total|]. eapply doc_classes; [done|done|done|done|by rewrite J].
  - destruct (ignored_family _ _ X) as (_ & F1 & _ & C & _). destruct M as [(F & _)|(a & b & mid & E & F & L & ->)]; [apply free_count in F; congruence|].
    assert (a = path ++ "/" /\ b = ":" ++ u) as [-> ->].
    { assert (Q : cut_at "*" (a ++ String "*" b) = cut_at "*" ((path ++ "/") ++ String "*" (":" ++ u))) by (f_equal; rewrite <- app_assoc_s; symmetry; exact E). rewrite !cut_first in Q by done. by injection Q. }
    rewrite <- app_assoc_s. eexists. by apply doc_ignored.
Qed.
Lemma find_none fs name : forallb starred_once fs = true -> List.filter (family_matches name) fs = [] -> exists e, find_match fs name = FError e.
Proof. intros S E. unfold find_match, find_family. rewrite scan_spec by done. rewrite E. by eexists. Qed.
Theorem C46_unknown name : (forall o, ~ documented name o) <-> exists e, find_match runtime_families name = FError e.
Proof.
  split.
  - intros N. assert (E : List.filter (family_matches name) runtime_families = []).
    { destruct (List.filter (family_matches name) runtime_families) as [|f l] eqn:E; [done|]. exfalso. assert (Hf : In f (List.filter (family_matches name) runtime_families)) by (rewrite E; by left).
      apply filter_In in Hf as [Hf M]. apply elem_of_list_In in Hf. apply family_matches_spec in M. destruct (matched_documented f name Hf M) as (o & D). by apply (N o). }
    apply find_none; [apply families_ok|exact E].
  - intros (e & E) o D. apply C46_documented in D. rewrite E in D. destruct o; cbn in D; destruct D as (m & ? & _); done.
Qed.
Lemma shows_fun f o o' : shows f o -> shows f o' -> o = o'.
Proof.
  destruct o as [| |n u a k], o' as [| |n' u' a' k']; cbn; intros (m & E & A) (m' & E' & A'); rewrite E in E'; injection E' as <-; try done; try congruence.
  - destruct A' as (B & _). by rewrite A in B.
  - destruct A' as (B & _). by rewrite A in B.
  - destruct A as (B & _). by rewrite A' in B.
  - destruct A as (B & _). by rewrite A' in B.
  - destruct A as (A1 & A2 & A3 & A4), A' as (B1 & B2 & B3 & B4). congruence.
Qed.
(** The translation is a function, and never fails on an index. *)
Theorem C46_determined name o o' : documented name o -> documented name o' -> o = o'.
Proof. intros D D'. eapply shows_fun; by apply C46_documented. Qed.
Theorem C46_safe name : find_match runtime_families name <> FPanic.
Proof.
  intros E. destruct (List.filter (family_matches name) runtime_families) as [|f l] eqn:Fl.
  - destruct (find_none runtime_families name (proj1 families_ok) Fl) as (e & Q). rewrite Q in E. discriminate E.
  - assert (Hf : In f (List.filter (family_matches name) runtime_families)) by (rewrite Fl; by left). apply filter_In in Hf as [Hf M]. apply elem_of_list_In in Hf. apply family_matches_spec in M.
    destruct (matched_documented f name Hf M) as (o & D). apply C46_documented in D. rewrite E in D. destruct o; cbn in D; destruct D as (m & ? & _); done.
Qed.
(** At most one family matches a name. *)
Theorem C46_one_family name f g : f ∈ runtime_families -> g ∈ runtime_families -> family_matches name f = true -> family_matches name g = true -> f = g.
Proof.
  intros Hf Hg Mf Mg. apply family_matches_spec in Mf. apply family_matches_spec in Mg. pose proof (find_runtime _ _ Hf Mf) as A. pose proof (find_runtime _ _ Hg Mg) as B. rewrite A in B. injection B as E. exact E.
Qed.
(** The whole rule: what the code does with a name is what is documented for it. *)
Theorem C46_table name o : documented name o <-> shows (find_match runtime_families name) o.
Proof.
  split; [apply C46_documented|]. intros S. destruct (List.filter (family_matches name) runtime_families) as [|f l] eqn:Fl.
  - destruct (find_none runtime_families name (proj1 families_ok) Fl) as (e & Q). rewrite Q in S. destruct o; cbn in S; destruct S as (m & ? & _); done.
  - assert (Hf : In f (List.filter (family_matches name) runtime_families)) by (rewrite Fl; by left). apply filter_In in Hf as [Hf M]. apply elem_of_list_In in Hf. apply family_matches_spec in M.
    destruct (matched_documented f name Hf M) as (o' & D). by rewrite (shows_fun _ _ _ S (C46_documented _ _ D)).
Qed.

(** Where an instrument comes from. *)
Inductive origin := OrSingle (path : string) | OrObjects (path : string) | OrBytes (path : string) | OrClasses (path u : string).
Definition origins : list (string * origin) :=
  (map (fun '(path, _, name, _, _) => (name, OrSingle path)) singles ++ map (fun '(path, name) => ((name ++ ".objects")%string, OrObjects path)) pairs ++
   map (fun '(path, name) => (name, OrBytes path)) pairs ++ map (fun '(path, u, name, _, _) => (name, OrClasses path u)) classes)%list.
Definition from (o : origin) (unit : string) (a : list kv) (name : string) : Prop :=
  match o with
  | OrSingle path | OrBytes path => exists w, ucum w unit /\ name = path ++ ":" ++ w
  | OrObjects path => name = path ++ ":objects"
  | OrClasses path u => exists cs, a = class_set cs /\ name = path ++ "/" ++ joined "/" cs ++ ":" ++ u
  end.
Lemma shown_origin name nm unit a k : documented name (OShown nm unit a k) -> exists o, (nm, o) ∈ origins /\ from o unit a name.
Proof.
  intros D. inversion D as [path u nm' unit' k' X|path u nm' unit0 k' x unit' X Nx U| |path nm' X|path nm' u unit' X Nu L U|path u nm' unit' k' cs last X La Nt F L| |]; subst.
  - exists (OrSingle path). split; [|exists u; split; [|done]; destruct (single_family _ _ _ _ _ X) as (_ & _ & _ & _ & _ & E & _); subst; apply ucum_fix].
    unfold origins. rewrite !elem_of_app. left. apply elem_of_list_fmap. by exists (path, u, nm, unit, k).
  - exists (OrSingle path). split; [|by exists (u ++ x)]. unfold origins. rewrite !elem_of_app. left. apply elem_of_list_fmap. by exists (path, u, nm, unit0, k).
  - exists (OrObjects path). split; [|done]. unfold origins. rewrite !elem_of_app. right; left. apply elem_of_list_fmap. by exists (path, nm').
  - exists (OrBytes path). split; [|by exists u]. unfold origins. rewrite !elem_of_app. right; right; left. apply elem_of_list_fmap. by exists (path, nm).
  - exists (OrClasses path u). split; [|by exists cs]. unfold origins. rewrite !elem_of_app. right; right; right. apply elem_of_list_fmap. by exists (path, u, nm, unit, k).
Qed.
Lemma attrs_origin name nm unit a k : documented name (OShown nm unit a k) -> exists o, (nm, o) ∈ origins /\ (a = [] <-> match o with OrClasses _ _ => False | _ => True end).
Proof.
  intros D. inversion D as [path u nm' unit' k' X|path u nm' unit0 k' x unit' X Nx U| |path nm' X|path nm' u unit' X Nu L U|path u nm' unit' k' cs last X La Nt F L| |]; subst.
  - exists (OrSingle path). split; [|done]. unfold origins. rewrite !elem_of_app. left. apply elem_of_list_fmap. by exists (path, u, nm, unit, k).
  - exists (OrSingle path). split; [|done]. unfold origins. rewrite !elem_of_app. left. apply elem_of_list_fmap. by exists (path, u, nm, unit0, k).
  - exists (OrObjects path). split; [|done]. unfold origins. rewrite !elem_of_app. right; left. apply elem_of_list_fmap. by exists (path, nm').
  - exists (OrBytes path). split; [|done]. unfold origins. rewrite !elem_of_app. right; right; left. apply elem_of_list_fmap. by exists (path, nm).
  - exists (OrClasses path u). split; [|by destruct cs]. unfold origins. rewrite !elem_of_app. right; right; right. apply elem_of_list_fmap. by exists (path, u, nm, unit, k).
Qed.
(** The kind of an instrument goes with its name. *)
Definition kinds : list (string * kind) :=
  (map (fun '(_, _, name, _, k) => (name, k)) singles ++ map (fun '(_, name) => ((name ++ ".objects")%string, AsyncCounter)) pairs ++
   map (fun '(_, name) => (name, AsyncCounter)) pairs ++ map (fun '(_, _, name, _, k) => (name, k)) classes)%list.
Lemma kinds_names : NoDup kinds.*1.
Proof. apply (bool_decide_unpack _). vm_compute. exact I. Qed.
Lemma shown_kind name nm unit a k : documented name (OShown nm unit a k) -> (nm, k) ∈ kinds.
Proof.
  intros D. inversion D as [path u nm' unit' k' X|path u nm' unit0 k' x unit' X Nx U| |path nm' X|path nm' u unit' X Nu L U|path u nm' unit' k' cs last X La Nt F L| |]; subst; unfold kinds; rewrite !elem_of_app.
  - left. apply elem_of_list_fmap. by exists (path, u, nm, unit, k).
  - left. apply elem_of_list_fmap. by exists (path, u, nm, unit0, k).
  - right; left. apply elem_of_list_fmap. by exists (path, nm').
  - right; right; left. apply elem_of_list_fmap. by exists (path, nm).
  - right; right; right. apply elem_of_list_fmap. by exists (path, u, nm, unit, k).
Qed.
Lemma kind_of_name n1 n2 nm unit unit' a a' k k' : documented n1 (OShown nm unit a k) -> documented n2 (OShown nm unit' a' k') -> k = k'.
Proof.
  intros D1%shown_kind D2%shown_kind. apply elem_of_list_lookup in D1 as (i & X). apply elem_of_list_lookup in D2 as (j & X').
  assert (i = j) as <- by (apply (NoDup_lookup _ i j nm kinds_names); rewrite list_lookup_fmap; [by rewrite X|by rewrite X']). congruence.
Qed.
Lemma origins_names : NoDup origins.*1.
Proof. apply (bool_decide_unpack _). vm_compute. exact I. Qed.
Lemma origin_unique nm o o' : (nm, o) ∈ origins -> (nm, o') ∈ origins -> o = o'.
Proof.
  intros X X'. apply elem_of_list_lookup in X as (i & X). apply elem_of_list_lookup in X' as (j & X').
  assert (i = j) as <- by (apply (NoDup_lookup _ i j nm origins_names); rewrite list_lookup_fmap; [by rewrite X|by rewrite X']). congruence.
Qed.
Lemma ucum_inj u u' v : ucum u v -> ucum u' v -> u = u'.
Proof.
  intros [(-> & ->)|[(-> & ->)|[(-> & ->)|(A & B & C & ->)]]] [(-> & E)|[(-> & E)|[(-> & E)|(A' & B' & C' & E)]]]; try done. cbn in E. injection E as E. by apply app_tail_eq in E.
Qed.
Lemma class_set_inj cs cs' : class_set cs = class_set cs' -> cs = cs'.
Proof.
  intros E. apply list_eq. intros i. assert (Q : class_set cs !! i = class_set cs' !! i) by (by rewrite E). unfold class_set in Q. rewrite !list_lookup_imap in Q.
  destruct (cs !! i), (cs' !! i); cbn in Q; congruence.
Qed.
(** Two metrics never share an instrument and its attributes. *)
Theorem C46_distinct n1 n2 nm unit a k k' : documented n1 (OShown nm unit a k) -> documented n2 (OShown nm unit a k') -> n1 = n2.
Proof.
  intros D1 D2. destruct (shown_origin _ _ _ _ _ D1) as (o1 & X1 & F1), (shown_origin _ _ _ _ _ D2) as (o2 & X2 & F2). pose proof (origin_unique _ _ _ X1 X2) as <-.
  destruct o1; cbn in F1, F2.
  - destruct F1 as (w & U & ->), F2 as (w' & U' & ->). by rewrite (ucum_inj _ _ _ U U').
  - congruence.
  - destruct F1 as (w & U & ->), F2 as (w' & U' & ->). by rewrite (ucum_inj _ _ _ U U').
  - destruct F1 as (cs & -> & ->), F2 as (cs' & E & ->). apply class_set_inj in E as ->. done.
Qed.
(** The attributes of a metric have different keys. *)
Theorem C46_keys name nm unit a k : documented name (OShown nm unit a k) -> NoDup a.*1.
Proof.
  intros D. assert (Q : forall cs, NoDup (class_set cs).*1).
  { intros cs. apply NoDup_alt. intros i j x Ei Ej. unfold class_set in Ei, Ej. rewrite list_lookup_fmap, list_lookup_imap in Ei, Ej. destruct (cs !! i); [|done]. destruct (cs !! j); [|done].
    cbn in Ei, Ej. injection Ei as <-. injection Ej as Ej. by apply class_key_inj. }
  inversion D; subst; try constructor. apply Q.
Qed.
(** The same for any table of patterns: a name that exactly one pattern matches is found. *)
Theorem C46_exactly_one fs name f : forallb starred_once fs = true -> List.filter (family_matches name) fs = [f] -> find_family fs name = inl (Some f).
Proof. intros S E. by apply find_family_one. Qed.
(** What is not so: classes of one letter are not recognised, and names that only begin as a known one are. *)
Theorem C46_short_class_refuted : exists e, find_match runtime_families "/gc/cycles/x:gc-cycles" = FError e.
Proof. eexists. vm_compute. reflexivity. Qed.
Theorem C46_longer_refuted : documented "/gc/pauses:secondsX" OHistogram /\ documented "/sched/gomaxprocs:threadsX" (OShown "process.runtime.go.sched.gomaxprocs" "{threadsX}" [] AsyncGauge).
Proof. split; apply C46_table; vm_compute; eexists; repeat split. Qed.
(** Another table of patterns can make the translation fail on an index. *)
Theorem C46_other_patterns_refuted : find_match [Family "/a*b" BCounter] "/aXXb" = FPanic.
Proof. vm_compute. reflexivity. Qed.

Module Ex46.
  Example cpu : documented "/cpu/classes/gc/mark/assist:cpu-seconds" (OShown "process.runtime.go.cpu.time" "{cpu-seconds}" [("class", VString "gc"); ("class2", VString "mark"); ("class3", VString "assist")] AsyncCounter).
  Proof. apply C46_table. vm_compute. eexists. repeat split. Qed.
  Example total : documented "/memory/classes/total:bytes" OSkipped /\ documented "/cpu/classes/gc/total:cpu-seconds" OSkipped.
  Proof. split; apply C46_table; vm_compute; eexists; repeat split. Qed.
  Example usage : documented "/memory/classes/heap/free:bytes" (OShown "process.runtime.go.memory.usage" "By" [("class", VString "heap"); ("class2", VString "free")] AsyncUpDownCounter).
  Proof. apply C46_table. vm_compute. eexists. repeat split. Qed.
  Example pair : documented "/gc/heap/allocs:objects" (OShown "process.runtime.go.gc.heap.allocs.objects" "" [] AsyncCounter) /\ documented "/gc/heap/allocs:bytes" (OShown "process.runtime.go.gc.heap.allocs" "By" [] AsyncCounter).
  Proof. split; apply C46_table; vm_compute; eexists; repeat split. Qed.
  Example unknown : forall o, ~ documented "/gc/new-in-go-2:things" o.
  Proof. apply C46_unknown. eexists. vm_compute. reflexivity. Qed.
End Ex46.

(** ** C52 *)
Lemma register_app create fs all hs es : register create fs all hs es =
  match register create fs all [] [] with RegPanic h => RegPanic (hs ++ h)%list | RegError h e => RegError (hs ++ h)%list e | RegOk h e => RegOk (hs ++ h)%list (es ++ e)%list end.
Proof.
  revert hs es. induction all as [|d r IH]; intros hs es; cbn [register]; [by rewrite !app_nil_r|]. destruct (find_match fs (rd_name d)) as [|e|m].
  - by rewrite app_nil_r.
  - rewrite (IH (hs ++ _)%list), (IH ([] ++ _)%list). destruct (register create fs r [] []); by rewrite <- ?app_assoc.
  - assert (A : forall x, register create fs r (hs ++ [x])%list es = match register create fs r ([] ++ [x])%list [] with RegPanic h => RegPanic (hs ++ h)%list | RegError h e => RegError (hs ++ h)%list e | RegOk h e => RegOk (hs ++ h)%list (es ++ e)%list end).
    { intros x. rewrite (IH (hs ++ _)%list), (IH ([] ++ _)%list). destruct (register create fs r [] []); by rewrite <- ?app_assoc. }
    assert (B : register create fs r hs es = match register create fs r [] [] with RegPanic h => RegPanic (hs ++ h)%list | RegError h e => RegError (hs ++ h)%list e | RegOk h e => RegOk (hs ++ h)%list (es ++ e)%list end) by apply IH.
    destruct (m_kind m); try apply B; try (destruct (instrument m (rd_kind d)) as [i|]; [|apply A]; destruct (create i); [by rewrite app_nil_r|];
      rewrite (IH hs (es ++ _)%list), (IH [] ([] ++ _)%list); destruct (register create fs r [] []); by rewrite <- ?app_assoc).
    destruct (rd_kind d); try apply A. apply B.
Qed.
Lemma find_cases name : (exists e, find_match runtime_families name = FError e /\ forall o, ~ documented name o) \/ exists m o, find_match runtime_families name = FOk m /\ documented name o.
Proof.
  destruct (find_match runtime_families name) as [|e|m] eqn:E.
  - by apply C46_safe in E.
  - left. exists e. split; [done|]. apply C46_unknown. by exists e.
  - right. destruct (List.filter (family_matches name) runtime_families) as [|f l] eqn:Fl.
    + destruct (find_none runtime_families name (proj1 families_ok) Fl) as (e & Q). congruence.
    + assert (Hf : In f (List.filter (family_matches name) runtime_families)) by (rewrite Fl; by left). apply filter_In in Hf as [Hf M]. apply elem_of_list_In in Hf. apply family_matches_spec in M.
      destruct (matched_documented f name Hf M) as (o & D). by exists m, o.
Qed.
(** One metric: what it adds, and the error of its creation. *)
Lemma register_one create d : (exists hs es, register create runtime_families [d] [] [] = RegOk hs es /\ contributes d hs es /\ (forall e, e ∈ es -> create (en_inst e) = None)) \/
  (exists i e, register create runtime_families [d] [] [] = RegError [] e /\ create i = Some e /\ contributes d [] [Entry (rd_name d) i (match find_match runtime_families (rd_name d) with FOk m => m_attrs m | _ => [] end)]).
Proof.
  cbn [register]. destruct (find_cases (rd_name d)) as [(e & E & N)|(m & o & E & D)].
  - rewrite E. left. exists [rd_name d], []. split; [done|]. split; [by constructor|]. intros x Hx. by apply elem_of_nil in Hx.
  - rewrite E. pose proof (C46_documented _ _ D) as S. rewrite E in S. destruct o as [| |nm unit a k]; cbn in S.
    + destruct S as (m' & Em & K). injection Em as <-. rewrite K. left. exists [], []. split; [done|]. split; [by apply con_skipped|]. intros x Hx. by apply elem_of_nil in Hx.
    + destruct S as (m' & Em & K). injection Em as <-. rewrite K. left. assert (Q : forall x : entry, x ∈ [] -> create (en_inst x) = None) by (intros x Hx; by apply elem_of_nil in Hx).
      destruct (rd_kind d) eqn:Kd; eexists _, []; (split; [reflexivity|]); (split; [|exact Q]); try (apply con_not_histogram; [done|by rewrite Kd]). by apply con_histogram.
    + destruct S as (m' & Em & K & <- & <- & <-). injection Em as <-. pose proof (described _ _ _ _ _ _ D E) as Ds.
      assert (I : instrument m (rd_kind d) = match rd_kind d with RUint64 => Some (Descriptor (m_name m) k IntKind (m_desc m ++ " from runtime/metrics") (m_unit m)) | RFloat64 => Some (Descriptor (m_name m) k FloatKind (m_desc m ++ " from runtime/metrics") (m_unit m)) | _ => None end).
      { unfold instrument. destruct (m_kind m); try done; cbn in K; injection K as <-; by destruct (rd_kind d). }
      assert (W : forall A (x y z : A), match m_kind m with BSkip => x | BHistogram => y | _ => z end = z) by (intros; by destruct (m_kind m)).
      rewrite W, I. clear W I. destruct (rd_kind d) eqn:Kd.
      * destruct (create _) as [e|] eqn:C.
        -- right. eexists _, e. split; [reflexivity|]. split; [exact C|]. apply con_integer; [done|done|exact Ds].
        -- left. eexists _, _. split; [reflexivity|]. split; [apply con_integer; [done|done|exact Ds]|]. intros x Hx. apply elem_of_list_singleton in Hx as ->. exact C.
      * destruct (create _) as [e|] eqn:C.
        -- right. eexists _, e. split; [reflexivity|]. split; [exact C|]. apply con_float; [done|done|exact Ds].
        -- left. eexists _, _. split; [reflexivity|]. split; [apply con_float; [done|done|exact Ds]|]. intros x Hx. apply elem_of_list_singleton in Hx as ->. exact C.
      * left. eexists _, _. split; [reflexivity|]. split; [eapply con_not_number; [done|by left]|]. intros x Hx. by apply elem_of_nil in Hx.
      * left. eexists _, _. split; [reflexivity|]. split; [eapply con_not_number; [done|by right]|]. intros x Hx. by apply elem_of_nil in Hx.
Qed.
Lemma register_cons create fs d r : register create fs (d :: r) [] [] =
  match register create fs [d] [] [] with RegOk h e => register create fs r h e | x => x end.
Proof.
  cbn [register]. destruct (find_match fs (rd_name d)) as [|e|m]; [done|done|]. destruct (m_kind m); try done; try (by destruct (rd_kind d)); destruct (instrument m (rd_kind d)) as [i|]; try done; by destruct (create i).
Qed.
(** Every metric of the runtime does exactly what is documented for it, in order. *)
Theorem C52_registers create all hs es : register create runtime_families all [] [] = RegOk hs es -> contribute all hs es.
Proof.
  revert hs es. induction all as [|d r IH]; intros hs es; [intros [= <- <-]; constructor|]. rewrite register_cons. destruct (register_one create d) as [(h & e & E & C & _)|(i & e & E & _)]; rewrite E; [|done].
  rewrite register_app. destruct (register create runtime_families r [] []) as [|h' e'|h' e'] eqn:Er; try done. intros [= <- <-]. constructor; [done|]. by apply IH.
Qed.
(** It succeeds when the meter does, and otherwise returns the error of the first instrument it refuses. *)
Theorem C52_succeeds create all : (forall i, create i = None) -> exists hs es, register create runtime_families all [] [] = RegOk hs es.
Proof.
  intros C. induction all as [|d r (hs & es & IH)]; [by exists [], []|]. rewrite register_cons. destruct (register_one create d) as [(h & e & E & _)|(i & e & E & Ci & _)]; [|by rewrite C in Ci].
  rewrite E, register_app, IH. by eexists _, _.
Qed.
Theorem C52_fails create all hs e : register create runtime_families all [] [] = RegError hs e ->
  exists before d after es i a, all = (before ++ d :: after)%list /\ contribute before hs es /\ (forall x, x ∈ es -> create (en_inst x) = None) /\ contributes d [] [Entry (rd_name d) i a] /\ create i = Some e.
Proof.
  revert hs. induction all as [|d r IH]; intros hs; [done|]. rewrite register_cons. destruct (register_one create d) as [(h & e' & E & C & N)|(i & e' & E & Ci & C)]; rewrite E.
  - rewrite register_app. destruct (register create runtime_families r [] []) as [|h' x|h' x] eqn:Er; try done. intros [= <- <-]. destruct (IH h' eq_refl) as (before & d' & after & es & i & a & -> & Cb & Nb & Cd & Ci).
    exists (d :: before), d', after, (e' ++ es)%list, i, a. split; [done|]. split; [by constructor|]. split; [|done]. intros y [Hy|Hy]%elem_of_app; [by apply N|by apply Nb].
  - intros [= <- <-]. exists [], d, r, [], i, (match find_match runtime_families (rd_name d) with FOk m => m_attrs m | _ => [] end). split; [done|]. split; [constructor|]. split; [|done]. intros y Hy. by apply elem_of_nil in Hy.
Qed.
Theorem C52_safe create all hs : register create runtime_families all [] [] <> RegPanic hs.
Proof.
  revert hs. induction all as [|d r IH]; intros hs; [done|]. rewrite register_cons. destruct (register_one create d) as [(h & e' & E & C & N)|(i & e' & E & Ci & C)]; rewrite E; [|done].
  rewrite register_app. destruct (register create runtime_families r [] []) as [|h' x|h' x] eqn:Er; try done. by destruct (IH hs0).
Qed.
Lemma contribute_entry all hs es e : contribute all hs es -> e ∈ es -> exists d nm unit a k desc n, d ∈ all /\ documented (rd_name d) (OShown nm unit a k) /\
  e = Entry (rd_name d) (Descriptor nm k n desc unit) a /\ describes (rd_name d) nm a desc /\ ((rd_kind d = RUint64 /\ n = IntKind) \/ (rd_kind d = RFloat64 /\ n = FloatKind)).
Proof.
  intros C. induction C as [|d ds h es h' es' Cd C IH]; intros He; [by apply elem_of_nil in He|]. apply elem_of_app in He as [He|He].
  - inversion Cd; subst; try (by apply elem_of_nil in He); apply elem_of_list_singleton in He as ->; eexists d, _, _, _, _, _, _; (split; [by left|]); (split; [eassumption|]); (split; [reflexivity|]); auto.
  - destruct (IH He) as (d' & nm & unit & a & k & desc & n & Hd & R). exists d', nm, unit, a, k, desc, n. split; [by right|done].
Qed.
(** Samples that go to an instrument of one name, unit and number kind go to one instrument. *)
Theorem C52_one_instrument all hs es e1 e2 : contribute all hs es -> e1 ∈ es -> e2 ∈ es ->
  i_name (en_inst e1) = i_name (en_inst e2) -> i_unit (en_inst e1) = i_unit (en_inst e2) -> i_num (en_inst e1) = i_num (en_inst e2) -> en_inst e1 = en_inst e2.
Proof.
  intros C H1 H2. destruct (contribute_entry _ _ _ _ C H1) as (d1 & nm & unit & a & k & desc & n & _ & D1 & -> & Ds1 & _).
  destruct (contribute_entry _ _ _ _ C H2) as (d2 & nm' & unit' & a' & k' & desc' & n' & _ & D2 & -> & Ds2 & _). cbn. intros <- <- <-.
  assert (Q : k = k' /\ desc = desc').
  { destruct (shown_origin _ _ _ _ _ D1) as (o1 & X1 & F1), (shown_origin _ _ _ _ _ D2) as (o2 & X2 & F2). pose proof (origin_unique _ _ _ X1 X2) as <-. split; [by eapply kind_of_name|].
    assert (A : a = [] <-> a' = []).
    { destruct (attrs_origin _ _ _ _ _ D1) as (o & Y & Z). destruct (attrs_origin _ _ _ _ _ D2) as (o' & Y' & Z'). pose proof (origin_unique _ _ _ Y Y') as <-. tauto. }
    destruct Ds1 as [(Ea & ->)|(Ea & path & u & un & kk & P & ->)], Ds2 as [(Ea' & ->)|(Ea' & path' & u' & un' & kk' & P' & ->)]; try tauto.
    - subst a a'. by rewrite (C46_distinct _ _ _ _ _ _ _ D1 D2).
    - assert (R : OrClasses path u = OrClasses path' u') by (apply (origin_unique nm); unfold origins; rewrite !elem_of_app; right; right; right; apply elem_of_list_fmap;
        [by exists (path, u, nm, un, kk)|by exists (path', u', nm, un', kk')]). by injection R as -> ->. }
  by destruct Q as [-> ->].
Qed.
(** No two samples go to the same instrument with the same attributes. *)
Definition stream_of (e : entry) : string * string * list kv := (i_name (en_inst e), i_unit (en_inst e), en_attrs e).
Theorem C52_streams all hs es : NoDup (map rd_name all) -> contribute all hs es -> NoDup (map stream_of es).
Proof.
  intros N C. induction C as [|d ds h es h' es' Cd C IH]; [constructor|]. apply list.NoDup_cons in N as [N1 N2]. rewrite map_app. apply NoDup_app. split; [|split; [|by apply IH]].
  - inversion Cd; subst; cbn; try constructor; try apply NoDup_nil; try (rewrite elem_of_nil; tauto); done.
  - intros x Hx Hx'. apply elem_of_list_fmap in Hx as (e & -> & He). apply elem_of_list_fmap in Hx' as (e' & Ee & He').
    destruct (contribute_entry [d] (h ++ [])%list (es ++ [])%list e) as (d1 & nm & unit & a & k & desc & n & Hd & D & -> & _).
    { constructor; [done|constructor]. } { by rewrite app_nil_r. }
    destruct (contribute_entry ds h' es' e' C He') as (d2 & nm' & unit' & a' & k' & desc' & n' & Hd' & D' & -> & _). cbn in Ee. inversion Ee; subst. apply elem_of_list_singleton in Hd as ->.
    apply N1. rewrite (C46_distinct _ _ _ _ _ _ _ D D'). apply elem_of_list_fmap. by exists d2.
Qed.
(** On every collection each sample is observed once, in order, on its own instrument. *)
Lemma wrap_spec z : (- 2 ^ 63 <= wrap z < 2 ^ 63)%Z /\ (wrap z mod 2 ^ 64 = z mod 2 ^ 64)%Z.
Proof.
  split; [apply (wrap_int64 z)|]. destruct (wrap_mod z) as (k & ->). change (2 ^ 64)%Z with 18446744073709551616%Z. apply Z_mod_plus_full.
Qed.
Theorem C52_observes all hs es read : contribute all hs es -> as_described all read ->
  exists os, observe_all read es = (os, Some true) /\ Forall2 (observes read) es os.
Proof.
  intros C A. assert (Q : forall es', (forall e, e ∈ es' -> e ∈ es) -> exists os, observe_all read es' = (os, Some true) /\ Forall2 (observes read) es' os).
  { induction es' as [|e es' IH]; intros S; [exists []; by split|]. destruct IH as (os & E & F); [intros x Hx; apply S; by right|].
    destruct (contribute_entry all hs es e C (S e (elem_of_list_here _ _))) as (d & nm & unit & a & k & desc & n & Hd & D & -> & _ & K). specialize (A d Hd).
    destruct K as [[K ->]|[K ->]]; rewrite K in A; destruct A as (z & R); cbn [observe_all en_sample en_inst en_attrs i_num]; rewrite R, E.
    - eexists. split; [reflexivity|]. constructor; [|done]. destruct (wrap_spec z) as [W1 W2]. by apply (obs_int _ (Entry _ _ _) z).
    - eexists. split; [reflexivity|]. constructor; [|done]. by apply (obs_float _ (Entry _ _ _)). }
  by apply Q.
Qed.
(** A value that is no number ends the collection with an error, after those before it. *)
Theorem C52_stops all hs es1 e es2 read : contribute all hs (es1 ++ e :: es2) -> (forall d, d ∈ all -> rd_name d <> en_sample e -> as_described [d] read) ->
  (forall x, x ∈ es1 -> en_sample x <> en_sample e) -> read (en_sample e) = VHistogram \/ read (en_sample e) = VBad ->
  exists os, observe_all read (es1 ++ e :: es2) = (os, Some false) /\ Forall2 (observes read) es1 os.
Proof.
  intros C A N R. assert (Q : forall es', (forall x, x ∈ es' -> x ∈ es1) -> exists os, observe_all read (es' ++ e :: es2) = (os, Some false) /\ Forall2 (observes read) es' os).
  { induction es' as [|x es' IH]; intros S.
    - exists []. split; [|constructor]. cbn. by destruct R as [-> | ->].
    - destruct IH as (os & E & F); [intros y Hy; apply S; by right|]. assert (Hx : x ∈ es1) by (apply S; by left).
      destruct (contribute_entry all hs _ x C) as (d & nm & unit & a & k & desc & n & Hd & D & -> & _ & K); [apply elem_of_app; by left|].
      assert (B : as_described [d] read) by (apply A; [done|]; intros Eq; by apply (N _ Hx)). specialize (B d (elem_of_list_here _ _)).
      destruct K as [[K ->]|[K ->]]; rewrite K in B; destruct B as (z & B); cbn [app observe_all en_sample en_inst en_attrs i_num]; rewrite B, E.
      + eexists. split; [reflexivity|]. constructor; [|done]. destruct (wrap_spec z) as [W1 W2]. by apply (obs_int _ (Entry _ _ _) z).
      + eexists. split; [reflexivity|]. constructor; [|done]. by apply (obs_float _ (Entry _ _ _)). }
  by apply Q.
Qed.
(** A runtime that changes the kind of a value makes the callback panic; a number of 2^63 or more becomes negative. *)
Theorem C52_kind_refuted : exists d es read, register (fun _ => None) runtime_families [d] [] [] = RegOk [] es /\ read (rd_name d) = VFloat64 0 /\ observe_all read es = ([], None).
Proof. exists (RDesc "/gc/gogc:percent" RUint64). eexists _, (fun _ => VFloat64 0). split; [vm_compute; reflexivity|]. split; [done|]. vm_compute. reflexivity. Qed.
Theorem C52_large_refuted : exists d es read o, register (fun _ => None) runtime_families [d] [] [] = RegOk [] es /\ read (rd_name d) = VUint64 (2 ^ 63)%Z /\ observe_all read es = ([o], Some true) /\
  match o with ObsInt _ z _ => z = (- 2 ^ 63)%Z | _ => False end.
Proof. exists (RDesc "/gc/gomemlimit:bytes" RUint64). eexists _, (fun _ => VUint64 (2 ^ 63)%Z), _. split; [vm_compute; reflexivity|]. split; [done|]. split; [vm_compute; reflexivity|]. reflexivity. Qed.

Module Ex52.
  Definition all := [RDesc "/cgo/go-to-c-calls:calls" RUint64; RDesc "/cpu/classes/gc/total:cpu-seconds" RFloat64; RDesc "/cpu/classes/idle:cpu-seconds" RFloat64; RDesc "/new:things" RUint64;
                     RDesc "/gc/pauses:seconds" RHistogram; RDesc "/memory/classes/heap/free:bytes" RUint64; RDesc "/memory/classes/heap/unused:bytes" RUint64].
  Definition read (s : string) : rvalue := if String.eqb s "/gc/pauses:seconds" then VHistogram else if has_suffix "cpu-seconds" s then VFloat64 7 else VUint64 5.
  Example registers : exists es, register (fun _ => None) runtime_families all [] [] = RegOk ["/new:things"] es /\ length es = 4%nat /\ NoDup (map rd_name all) /\ as_described all read /\ length (observe_all read es).1 = 4%nat.
  Proof.
    eexists. split; [vm_compute; reflexivity|]. split; [reflexivity|]. split; [apply (bool_decide_unpack _); vm_compute; exact I|]. split; [|vm_compute; reflexivity].
    intros d Hd. unfold all in Hd. cases Hd; subst d; vm_compute; eauto.
  Qed.
  Example shares : exists es e1 e2, register (fun _ => None) runtime_families all [] [] = RegOk ["/new:things"] es /\ e1 ∈ es /\ e2 ∈ es /\ e1 <> e2 /\
    i_name (en_inst e1) = "process.runtime.go.memory.usage" /\ en_inst e1 = en_inst e2 /\ en_attrs e1 <> en_attrs e2.
  Proof.
    eexists _, _, _. split; [vm_compute; reflexivity|]. split; [do 2 apply elem_of_list_further; apply elem_of_list_here|]. split; [do 3 apply elem_of_list_further; apply elem_of_list_here|].
    by vm_compute.
  Qed.
  Example fails : register (fun i => if String.eqb (i_name i) "process.runtime.go.memory.usage" then Some "no" else None) runtime_families all [] [] = RegError ["/new:things"] "no".
  Proof. vm_compute. reflexivity. Qed.
  Definition broken (s : string) : rvalue := if String.eqb s "/memory/classes/heap/free:bytes" then VBad else read s.
  Example stops : exists es, register (fun _ => None) runtime_families all [] [] = RegOk ["/new:things"] es /\ length (observe_all broken es).1 = 2%nat /\ (observe_all broken es).2 = Some false.
  Proof. eexists. split; [vm_compute; reflexivity|]. split; vm_compute; reflexivity. Qed.
End Ex52.

Print Assumptions C46_documented.
Print Assumptions C46_unknown.
Print Assumptions C46_determined.
Print Assumptions C46_safe.
Print Assumptions C46_one_family.
Print Assumptions C46_table.
Print Assumptions C46_distinct.
Print Assumptions C46_keys.
Print Assumptions C46_exactly_one.
Print Assumptions C46_short_class_refuted.
Print Assumptions C46_longer_refuted.
Print Assumptions C46_other_patterns_refuted.
Print Assumptions C52_registers.
Print Assumptions C52_succeeds.
Print Assumptions C52_fails.
Print Assumptions C52_safe.
Print Assumptions C52_one_instrument.
Print Assumptions C52_streams.
Print Assumptions C52_observes.
Print Assumptions C52_stops.
Print Assumptions C52_kind_refuted.
Print Assumptions C52_large_refuted.
