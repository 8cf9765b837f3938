(** Properties of the output of collections: C30 (timestamps) and C31 (re-use of memory). *)
From Coq Require Import ZArith Bool String Lia.
From stdpp Require Import base list option strings.
From Verif Require Import Num Attr View Data DataSpec DataProofs.
Local Open Scope string_scope.
Local Open Scope Z_scope.

(** C31: producing into a used output gives the same reading as producing into a new one, and leaves the instruments in the same state,
    however append grows the slices. *)
Theorem C31_reuse grow grow' res ms sq o : typed_meters ms -> untouched o -> fits ms o ->
  read (produce grow res ms sq (Some o)).1 = read (produce grow' res ms sq None).1 /\
  (produce grow res ms sq (Some o)).2 = (produce grow' res ms sq None).2.
Proof.
  intros T U F. destruct (produce_spec grow res ms sq (Some o) T) as [E1 E2]; [intros m [= <-]; done|].
  destruct (produce_spec grow' res ms sq None T) as [E3 E4]; [done|]. by rewrite E1, E2, E3, E4.
Qed.
(** The collections of one reader, each writing into the output of the one before, as the periodic reader does (M/periodic.go:150-167). *)
Fixpoint reuse (grow : nat -> nat) (res : string) (o : option metrics) (l : list (list pmeter * sequence)) : list metrics :=
  match l with
  | [] => []
  | (ms, sq) :: l' => let m := (produce grow res ms sq o).1 in m :: reuse grow res (Some m) l'
  end.
(** Meters and streams are added between collections; what the streams hold is arbitrary. *)
Fixpoint growing (ms : list pmeter) (l : list (list pmeter * sequence)) : Prop :=
  match l with
  | [] => True
  | (ms', _) :: l' => typed_meters ms' /\ grows ms ms' /\ growing ms' l'
  end.
Lemma reuse_spec grow grow' res l : forall o ms, (forall m, o = Some m -> untouched m /\ own ms m) -> growing ms l ->
  map read (reuse grow res o l) = map (fun x => read (produce grow' res x.1 x.2 None).1) l.
Proof.
  induction l as [|[ms' sq] l IH]; intros o ms O G; cbn [reuse map]; [done|]. destruct G as (T & Gr & G).
  assert (O' : forall m, o = Some m -> untouched m /\ own ms' m).
  { intros m Hm. destruct (O m Hm) as [U W]. split; [done|]. by eapply own_grows. }
  f_equal.
  - destruct (produce_spec grow res ms' sq o T) as [E1 _]; [intros m Hm; destruct (O' m Hm); split; [done|by apply own_fits]|].
    destruct (produce_spec grow' res ms' sq None T) as [E3 _]; [done|]. cbn. by rewrite E1, E3.
  - apply (IH _ ms'); [|done]. intros m [= <-]. split.
    + apply produce_untouched. intros m Hm. apply (O' m Hm).
    + by apply produce_own.
Qed.
Theorem C31_history grow grow' res l : growing [] l ->
  map read (reuse grow res None l) = map (fun x => read (produce grow' res x.1 x.2 None).1) l.
Proof. intros G. by apply (reuse_spec grow grow' res l None []). Qed.

Module Ex31.
  Definition grow (n : nat) : nat := S n.
  Definition set (s : string) : list kv := [("k", VString s)].
  Definition d n := Descriptor n SyncCounter IntKind "" "".
  Definition sum n := StSum true (NInt n).
  Definition count (l : list entry) := Collector (d "count") (FSum true IntKind) 0 LowmemSync l [].
  Definition hist (l : list entry) := Collector (d "hist") (FHist FloatKind) 160 LowmemSync l [].
  Definition seen (l p : list entry) := Collector (d "seen") (FSum true IntKind) 0 StatefulAsync l p.
  Definition total (l : list entry) := Collector (d "total") (FGauge IntKind) 0 LowmemAsync l [].
  Definition h l := StHist FloatKind 160 (map (fun _ => NFloat zero) (l : list unit)).
  Definition m1 := [PMeter (Scope "a" "" "") [count [Entry (set "x") (sum 3) 1; Entry (set "y") (sum 0) 0; Entry (set "z") (sum 5) 0]; hist [Entry [] (h [tt]) 0]];
                    PMeter (Scope "b" "" "") [total [Entry [] (StGauge (NInt 7) 2) 0]]].
  Definition m2 := [PMeter (Scope "a" "" "") [count [Entry (set "x") (sum 1) 0]; hist [Entry [] (h []) 0]; seen [Entry [] (sum 9) 0] [Entry [] (sum 4) 0]];
                    PMeter (Scope "b" "" "") [total []]; PMeter (Scope "c" "" "") []].
  Definition l := [(m1, Sequence 0 0 10); (m2, Sequence 0 10 20); (m2, Sequence 0 20 30)].
  Example grows_so : growing [] l.
  Proof.
    assert (T1 : typed_meters m1). { repeat constructor. }
    assert (T2 : typed_meters m2). { repeat constructor. }
    split; [exact T1|]. split; [intros i j k H; destruct i; discriminate H|].
    split; [exact T2|]. split.
    { intros i j k H. destruct i as [|[|i]]; [| |destruct i; discriminate H]; destruct j as [|[|j]]; cbn in H; try discriminate H; injection H as <-; eexists; split; try done. }
    split; [exact T2|]. split; [|done]. intros i j k H. exists k. done.
  Qed.
  Example readings : map (fun x => map (fun s => map (fun i => length i.2) s.2) x.2) (map read (reuse grow "r" None l)) =
    [[[2; 1]; [1]]; [[1; 0; 1]; [0]; []]; [[1; 0; 1]; [0]; []]]%nat.
  Proof. vm_compute. reflexivity. Qed.
End Ex31.

(** The output must come back as it was returned, or after Reset: a caller who shortens a slice by hand gets old points again. *)
Theorem C31_shortened_refuted : exists grow res ms sq o sq', typed_meters ms /\ o = (produce grow res ms sq None).1 /\
  let short := Metrics (mt_res o) (Slice (take 1 (vis (mt_scopes o))) (drop 1 (vis (mt_scopes o)) ++ hid (mt_scopes o))) in
  read (produce grow res ms sq' (Some short)).1 <> read (produce grow res ms sq' None).1.
Proof.
  exists Ex31.grow, "r", Ex31.m1, (Sequence 0 0 10). eexists. exists (Sequence 0 10 20). split; [|split; [reflexivity|]].
  - repeat constructor.
  - intros short E. apply (f_equal (fun x => map (fun s => map (fun i => length i.2) s.2) x.2)) in E. vm_compute in E. discriminate E.
Qed.

(** C30: a delta point covers the reader's interval, a cumulative point starts at the provider's start; both end now. *)
Theorem C30_points grow res ms sq inout : typed_meters ms -> (forall o, inout = Some o -> untouched o /\ fits ms o) ->
  forall lib is d ps q, (lib, is) ∈ (read (produce grow res ms sq inout).1).2 -> (d, ps) ∈ is -> q ∈ ps ->
  pt_end q = sq_now sq /\ ((pt_tempo q = DeltaTempo /\ pt_start q = sq_last sq) \/ (pt_tempo q = CumulativeTempo /\ pt_start q = sq_start sq)).
Proof.
  intros T H lib is d ps q H1 H2 H3. destruct (produce_spec grow res ms sq inout T H) as [E _]. rewrite E in H1. cbn in H1.
  change (map ?f ms) with (f <$> ms) in H1. apply elem_of_list_fmap in H1 as (m & [= -> ->] & _).
  change (map ?f (pm_cols m)) with (f <$> pm_cols m) in H2. apply elem_of_list_fmap in H2 as (k & [= -> ->] & _).
  unfold reports in H3. destruct (k_mode k); change (map ?f ?l) with (f <$> l) in H3; apply elem_of_list_fmap in H3 as (e & -> & _); cbn; auto.
Qed.
(** Every stream is reported in every collection, in order, with or without points; and each point is the storage of one attribute set. *)
Theorem C30_streams grow res ms sq inout : typed_meters ms -> (forall o, inout = Some o -> untouched o /\ fits ms o) ->
  map (fun s => (s.1, map fst s.2)) (read (produce grow res ms sq inout).1).2 = map (fun m => (pm_lib m, map k_desc (pm_cols m))) ms.
Proof.
  intros T H. destruct (produce_spec grow res ms sq inout T H) as [E _]. rewrite E. cbn. rewrite map_map. apply map_ext. intros m. cbn. by rewrite map_map.
Qed.

(** The hypothesis [typed_meters] holds after every collection if it held before. *)
Lemma moved_typed k sq e : typed k -> e ∈ k_data k ->
  dyn (e_sto (moved k sq e)) = k_fam k /\ carried (e_sto (moved k sq e)) = config_of (k_fam k) (k_max k).
Proof.
  intros T He. destruct (proj1 (list.Forall_forall _ _) T e) as [D C]; [apply elem_of_app; by left|].
  destruct k as [d f mx md dt pr]. cbn in *. subst f. destruct (e_sto e) as [m v|v q|mn mx' sm c|n mx' l]; cbn in *; try done; try (destruct v; done); try (destruct sm; done).
  all: repeat case_match; cbn in *; simplify_eq; done.
Qed.
Theorem C31_typed grow res ms sq inout : typed_meters ms -> (forall o, inout = Some o -> untouched o /\ fits ms o) ->
  typed_meters (produce grow res ms sq inout).2.
Proof.
  intros T H. destruct (produce_spec grow res ms sq inout T H) as [_ E]. rewrite E.
  apply list.Forall_forall. intros m'. change (map ?f ms) with (f <$> ms). intros (m & -> & Hm)%elem_of_list_fmap. cbn.
  pose proof (proj1 (list.Forall_forall _ _) T m Hm) as Tm. apply list.Forall_forall. intros k'. change (map ?f (pm_cols m)) with (f <$> pm_cols m).
  intros (k & -> & Hk)%elem_of_list_fmap. pose proof (proj1 (list.Forall_forall _ _) Tm k Hk) as Tk. unfold typed in *.
  apply list.Forall_forall. intros e He. destruct k as [d f mx md dt pr]. destruct md; cbn [after] in He; cbn [k_data k_prior after k_fam k_max] in He |- *.
  - exact (proj1 (list.Forall_forall _ _) Tk e He).
  - apply elem_of_app in He as [He|He].
    + change (map ?g ?l) with (g <$> l) in He. apply elem_of_list_fmap in He as (e0 & -> & He0). apply elem_of_list_filter in He0 as [_ He0].
      exact (moved_typed (Collector d f mx LowmemSync dt pr) sq e0 Tk He0).
    + apply (proj1 (list.Forall_forall _ _) Tk). apply elem_of_app. by right.
  - apply (proj1 (list.Forall_forall _ _) Tk). apply elem_of_app. by right.
  - apply elem_of_app in He as [He|He].
    + unfold kept in He. cbn [k_data] in He. destruct (prior_of overflow_set dt) as [p|] eqn:Ep; [|by apply elem_of_nil in He].
      apply elem_of_list_singleton in He as ->. cbn. unfold prior_of in Ep. apply find_some in Ep as [Ep _]. rewrite <- elem_of_list_In in Ep.
      apply (proj1 (list.Forall_forall _ _) Tk). apply elem_of_app. by left.
    + apply (proj1 (list.Forall_forall _ _) Tk). apply elem_of_app. by left.
Qed.

(** C56: every stream is in its place in the output, and shows each attribute set with what its storage held; and afterwards it holds
    what it must for the next collection. *)
Lemma filter_find {A} (P : A -> Prop) `{!forall x, Decision (P x)} l : find (fun x => bool_decide (P x)) l = head (filter P l).
Proof.
  induction l as [|x l IH]; [done|]. cbn [find]. rewrite filter_cons. case_bool_decide; [by rewrite decide_True|by rewrite decide_False].
Qed.
Lemma has_change_spec s : has_change s = negb (unchanged s).
Proof. destruct s as [m [v|v]|v q|mn mx sm c|n mx []]; done. Qed.
Lemma filter_change (l : list entry) : filter (fun e => has_change (e_sto e)) l = filter (fun e => unchanged (e_sto e) = false) l.
Proof. apply list_filter_iff. intros e. rewrite has_change_spec, Is_true_true, negb_true_iff. done. Qed.
Lemma difference_spec k e : typed k -> (exists m n, k_fam k = FSum m n) -> e ∈ k_data k -> e_sto <$> difference k e = more_than (k_prior k) e /\ (forall d, difference k e = Some d -> e_set d = e_set e).
Proof.
  intros T (m & n & Ef) He. unfold difference, more_than, prior_of. rewrite (filter_find (fun p => e_set p = e_set e)).
  destruct (filter (fun p => e_set p = e_set e) (k_prior k)) as [|p r] eqn:F; [split; [done|by intros d [= <-]]|]. cbn [head].
  assert (Hp : p ∈ k_prior k) by (assert (X : p ∈ filter (fun p => e_set p = e_set e) (k_prior k)) by (rewrite F; left); by apply elem_of_list_filter in X as [_ X]).
  destruct (proj1 (list.Forall_forall _ _) T e) as [De _]; [apply elem_of_app; by left|]. destruct (proj1 (list.Forall_forall _ _) T p) as [Dp _]; [apply elem_of_app; by right|].
  rewrite Ef in De, Dp. destruct (e_sto e) as [me ve| | |]; try discriminate De. destruct (e_sto p) as [mp vp| | |]; try discriminate Dp.
  injection De as -> De. injection Dp as -> Dp. destruct ve as [ve|ve], vp as [vp|vp]; subst n; try discriminate Dp; cbn [subtract_swap nsub has_change nis_zero]; match goal with |- context [eqb ?a ?b] => destruct (eqb a b) end; cbn; (split; [done|]); intros d; try done; by intros [= <-].
Qed.
Lemma reports_shown k sq : typed k -> differences_of_sums k -> reports k sq = shown k sq.
Proof.
  intros T D. unfold reports, shown. destruct (k_mode k) eqn:M; [done| |done|].
  - by rewrite filter_change.
  - specialize (D M). pose proof (difference_spec k) as X. specialize (fun e => X e T D). clear D T. revert X. generalize (difference k), (more_than (k_prior k)). intros f g X.
    induction (k_data k) as [|e l IH]; [done|]. cbn. destruct (X e ltac:(left)) as [X1 X2]. rewrite <- X1.
    assert (IH' := IH (fun e He => X e (elem_of_list_further _ _ _ He))).
    destruct (f e) as [d|]; cbn; [|done]. unfold delta_point at 1. rewrite (X2 d eq_refl). by f_equal.
Qed.
Lemma moved_blank k sq e : dyn (e_sto e) = k_fam k -> carried (e_sto e) = config_of (k_fam k) (k_max k) -> moved k sq e = Entry (e_set e) (blank (e_sto e)) (e_refs e).
Proof.
  intros D C. unfold moved, write_point. cbn [pt_agg zero_point]. rewrite <- D in *. destruct (e_sto e) as [m v|v q|mn mx sm c|n mx l]; cbn; try done.
  cbn in C. by injection C as ->.
Qed.
Lemma after_left k sq : typed k -> after k sq = left_over k.
Proof.
  intros T. unfold left_over. destruct k as [d f mx md dt pr]. cbn [k_mode k_desc k_fam k_max k_data k_prior]. destruct md; cbn [after]; try done.
  - f_equal. rewrite (list_filter_iff _ (fun e => unchanged (e_sto e) = false \/ e_refs e <> 0)).
    + change (map ?f ?l) with (f <$> l). apply list_fmap_ext. intros i e He.
      apply elem_of_list_lookup_2, elem_of_list_filter in He as [_ He]. destruct (proj1 (list.Forall_forall _ _) T e) as [De Ce]; [apply elem_of_app; by left|].
      by apply moved_blank.
    + intros e. unfold stays. rewrite has_change_spec, Is_true_true, orb_true_iff, !negb_true_iff, Z.eqb_neq. done.
  - f_equal. unfold kept, prior_of. cbn [k_data]. rewrite (filter_find (fun p => e_set p = overflow_set)).
    change (new_set [("otel.metric.overflow", VBool true)]) with overflow_set.
    destruct (filter (fun p => e_set p = overflow_set) dt) as [|e r] eqn:F; [done|]. cbn.
    assert (X : e ∈ filter (fun p => e_set p = overflow_set) dt) by (rewrite F; left). apply elem_of_list_filter in X as [-> _]. done.
Qed.
Theorem C56_points grow res ms sq inout : typed_meters ms -> (forall o, inout = Some o -> untouched o /\ fits ms o) ->
  forall i j k, stream_at ms i j = Some k -> differences_of_sums k ->
  exists lib is, (read (produce grow res ms sq inout).1).2 !! i = Some (lib, is) /\ is !! j = Some (k_desc k, shown k sq) /\
                 stream_at (produce grow res ms sq inout).2 i j = Some (left_over k).
Proof.
  intros T H i j k Hk D. destruct (produce_spec grow res ms sq inout T H) as [E1 E2]. rewrite E1, E2. unfold stream_at in *.
  destruct (ms !! i) as [m|] eqn:Hm; [|done]. cbn [mbind option_bind] in Hk. pose proof (Forall_lookup_1 _ _ _ _ (Forall_lookup_1 _ _ _ _ T Hm) Hk) as Tk.
  exists (pm_lib m), (map (fun k => (k_desc k, reports k sq)) (pm_cols m)). unfold outcome. cbn [snd]. change (map ?f ms) with (f <$> ms). rewrite !list_lookup_fmap, Hm.
  split; [done|]. cbn [fmap option_fmap option_map mbind option_bind meter_after pm_cols]. change (map ?f (pm_cols m)) with (f <$> pm_cols m). rewrite !list_lookup_fmap, Hk.
  cbn [fmap option_fmap option_map]. rewrite (reports_shown k sq Tk D), (after_left k sq Tk). done.
Qed.
(** The output has the provider's resource and one scope per meter, in order, with one instrument per stream. *)
Theorem C56_shape grow res ms sq inout : typed_meters ms -> (forall o, inout = Some o -> untouched o /\ fits ms o) ->
  let out := read (produce grow res ms sq inout).1 in
  out.1 = res /\ map (fun s => (s.1, length s.2)) out.2 = map (fun m => (pm_lib m, length (pm_cols m))) ms.
Proof.
  intros T H. destruct (produce_spec grow res ms sq inout T H) as [E1 _]. cbn zeta. rewrite E1. split; [done|]. unfold outcome. cbn [snd]. rewrite map_map. apply map_ext.
  intros m. cbn. by rewrite map_length.
Qed.
Module Ex56.
  Import Ex31.
  Example typed2 : typed_meters m2. Proof. repeat constructor. Qed.
  (* the delta counter, the asynchronous counter that reports the difference, and the gauge without observations *)
  Example points : map (fun s => map (fun i => map (fun q => (pt_attrs q, pt_agg q)) i.2) s.2) (read (produce grow "r" m2 (Sequence 0 10 20) None).1).2 =
    [[[(set "x", Some (sum 1))]; []; [([], Some (sum 5))]]; [[]]; []].
  Proof. vm_compute. reflexivity. Qed.
  Example sums_only : forall i j k, stream_at m2 i j = Some k -> differences_of_sums k.
  Proof.
    intros i j k H. destruct i as [|[|[|i]]]; [| |destruct j; discriminate H|destruct i; discriminate H].
    - destruct j as [|[|[|j]]]; try discriminate H; injection H as <-; intros M; try discriminate M. exists true, IntKind. reflexivity.
    - destruct j as [|j]; [|destruct j; discriminate H]. injection H as <-. intros M. discriminate M.
  Qed.
End Ex56.

Print Assumptions C31_reuse.
Print Assumptions C31_history.
Print Assumptions C31_shortened_refuted.
Print Assumptions C30_points.
Print Assumptions C30_streams.
Print Assumptions C31_typed.
Print Assumptions C56_points.
Print Assumptions C56_shape.
