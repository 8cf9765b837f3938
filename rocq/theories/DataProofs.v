(** Proofs about the output memory. *)
From Coq Require Import ZArith Bool String Lia.
From stdpp Require Import base list option strings.
From Verif Require Import Num Attr View Data DataSpec.
Local Open Scope Z_scope.

(** Points. *)
Definition made (k : collector) (a : storage) : Prop := dyn a = k_fam k /\ carried a = config_of (k_fam k) (k_max k).
Definition usable (k : collector) (p : point) : Prop := forall a, pt_agg p = Some a -> dyn a = k_fam k -> carried a = config_of (k_fam k) (k_max k).
Lemma usable_zero k : usable k zero_point.
Proof. intros a H. discriminate. Qed.
Lemma new_made k : made k (new_storage (k_fam k) (k_max k)).
Proof. unfold made. destruct (k_fam k) as [m n|n|n|n]; [destruct n..|]; done. Qed.
Lemma copy_made k st out : made k st -> made k out -> copy st out = st.
Proof.
  intros [D C] [D' C']. rewrite <- C in C'. destruct st, out; try done; cbn in *; try (rewrite <- D in D'; discriminate). by injection C' as ->.
Qed.
Lemma nkind_nzero n : nkind_of (nzero n) = n.
Proof. by destruct n. Qed.
Lemma move_made k st out : made k st -> made k out -> (move st out).2 = st /\ made k (move st out).1.
Proof.
  intros [D C] [D' C']. pose proof C' as C''. rewrite <- C in C''. unfold made.
  destruct st, out; try done; cbn in *; try (rewrite <- D in D'; discriminate); rewrite ?nkind_nzero; done.
Qed.
Lemma move_indep k st o1 o2 : made k st -> made k o1 -> made k o2 -> move st o1 = move st o2.
Proof.
  intros [D C] [D1 C1] [D2 C2]. rewrite <- C2 in C1. destruct st; try done.
  destruct o1; cbn in *; try (rewrite <- D in D1; discriminate). destruct o2; cbn in *; try (rewrite <- D in D2; discriminate). by injection C1 as ->.
Qed.
Definition out_of (k : collector) (old : point) : storage :=
  match pt_agg old with Some a => if decide (dyn a = k_fam k) then a else new_storage (k_fam k) (k_max k) | None => new_storage (k_fam k) (k_max k) end.
Lemma out_made k old : usable k old -> made k (out_of k old).
Proof.
  intros U. unfold out_of. destruct (pt_agg old) as [a|] eqn:E; [|apply new_made].
  destruct (decide (dyn a = k_fam k)) as [H|H]; [|apply new_made]. split; [done|by apply U].
Qed.
Lemma write_indep k set st t s e rst old : made k st -> usable k old ->
  write_point k set st t s e rst old = write_point k set st t s e rst zero_point.
Proof.
  intros M U. unfold write_point. fold (out_of k old) (out_of k zero_point).
  pose proof (out_made k old U) as O. pose proof (out_made k zero_point (usable_zero k)) as O0. destruct rst.
  - by rewrite (move_indep k st _ _ M O O0).
  - by rewrite (copy_made k st _ M O), (copy_made k st _ M O0).
Qed.
(** The storage that a written point carries, and the storage left behind. *)
Lemma write_made k set st t s e rst old : made k st -> usable k old ->
  (write_point k set st t s e rst old).1 = Point set t (Some st) s e /\ made k (write_point k set st t s e rst old).2.
Proof.
  intros M U. unfold write_point. fold (out_of k old). pose proof (out_made k old U) as O. destruct rst.
  - destruct (move_made k st _ M O) as [E M']. destruct (move st (out_of k old)) as [f' t']; cbn in *. by subst.
  - by rewrite (copy_made k st _ M O).
Qed.

Definition good (k : collector) (ps : slice point) : Prop := Forall (usable k) (mem ps).
Definition strong (k : collector) (ps : slice point) : Prop := Forall (fun p => forall a, pt_agg p = Some a -> made k a) (mem ps).
Lemma strong_good k ps : strong k ps -> good k ps.
Proof. intros S. eapply list.Forall_impl; [exact S|]. intros p H a E _. by apply H. Qed.
Lemma made_usable k set t st s e : made k st -> usable k (Point set t (Some st) s e).
Proof. intros M a [= <-] _. apply M. Qed.

Section grow.
Context (grow : nat -> nat).
Lemma realloc_eq {T R} (z : T) (f : T -> T * R) s :
  realloc grow z f s = let x := default z (head (hid s)) in
    (Slice (vis s ++ [(f x).1]) (match hid s with [] => replicate (grow (length (vis s))) z | _ :: h => h end), (f x).2).
Proof. unfold realloc. destruct (hid s) as [|x h]; cbn; by destruct (f _). Qed.
Lemma realloc_forall {T R} (P : T -> Prop) (z : T) (f : T -> T * R) s :
  Forall P (mem s) -> P z -> (forall x, P x -> P (f x).1) -> Forall P (mem (realloc grow z f s).1).
Proof.
  intros H Z F. rewrite realloc_eq. unfold mem in *. cbn. apply list.Forall_app in H as [H1 H2].
  apply list.Forall_app. split; [apply list.Forall_app; split; [done|]|].
  - constructor; [|constructor]. apply F. destruct (hid s); [done|]. by inversion H2.
  - destruct (hid s); [|by inversion H2]. apply list.Forall_forall. intros x X. apply elem_of_replicate_inv in X. by subst.
Qed.

Lemma append_spec k set st t s e rst ps : made k st -> good k ps ->
  let r := append_point grow k set st t s e rst ps in
  vis r.1 = vis ps ++ [Point set t (Some st) s e] /\
  r.2 = (write_point k set st t s e rst zero_point).2 /\ made k r.2 /\ good k r.1 /\ (strong k ps -> strong k r.1).
Proof.
  intros M G. cbv zeta. unfold append_point.
  assert (Usable: usable k (default zero_point (head (hid ps)))).
  { unfold good, mem in G. apply list.Forall_app in G as [_ G]. destruct (hid ps); [apply usable_zero|]. by inversion G. }
  split; [|split; [|split; [|split]]].
  - rewrite realloc_eq. cbn. by rewrite (proj1 (write_made k set st t s e rst _ M Usable)).
  - rewrite realloc_eq. cbn. by rewrite write_indep.
  - rewrite realloc_eq. cbn. apply (write_made k set st t s e rst _ M Usable).
  - apply realloc_forall; [done|apply usable_zero|]. intros x X. rewrite (proj1 (write_made k set st t s e rst x M X)). by apply made_usable.
  - intros S. unfold strong. apply realloc_forall; [done|done|]. intros x X.
    assert (X' : usable k x) by (intros a E _; by apply X). rewrite (proj1 (write_made k set st t s e rst x M X')). by intros a [= <-].
Qed.
Lemma pop_snoc {T} (l : list T) x h : pop (Slice (l ++ [x]) h) = Slice l (x :: h).
Proof. unfold pop. cbn [vis hid]. rewrite reverse_snoc. by rewrite reverse_involutive. Qed.
Lemma pop_mem {T} (s : slice T) : mem (pop s) = mem s.
Proof.
  unfold pop, mem. destruct (reverse (vis s)) as [|x r] eqn:E; [done|]. cbn [vis hid].
  assert (vis s = reverse r ++ [x]) as ->. { rewrite <- (reverse_involutive (vis s)), E. by rewrite reverse_cons. }
  by rewrite <- app_assoc.
Qed.

(** What each Collect writes. *)
Definition cum_point (sq : sequence) (e : entry) : point := Point (e_set e) CumulativeTempo (Some (e_sto e)) (sq_start sq) (sq_now sq).
Definition delta_point (sq : sequence) (e : entry) : point := Point (e_set e) DeltaTempo (Some (e_sto e)) (sq_last sq) (sq_now sq).
Definition moved (k : collector) (sq : sequence) (e : entry) : entry :=
  Entry (e_set e) (write_point k (e_set e) (e_sto e) DeltaTempo (sq_last sq) (sq_now sq) true zero_point).2 (e_refs e).
Definition stays (e : entry) : bool := has_change (e_sto e) || negb (e_refs e =? 0).
Definition difference (k : collector) (e : entry) : option entry :=
  match prior_of (e_set e) (k_prior k) with
  | Some p => let d := subtract_swap (e_sto p) (e_sto e) in if has_change d then Some (Entry (e_set e) d 0) else None
  | None => Some e
  end.

Lemma copy_points_spec k sq es ps : Forall (fun e => made k (e_sto e)) es -> good k ps ->
  vis (copy_points grow k sq es ps) = vis ps ++ map (cum_point sq) es /\ good k (copy_points grow k sq es ps) /\
  (strong k ps -> strong k (copy_points grow k sq es ps)).
Proof.
  revert ps. induction es as [|e r IH]; intros ps M G; cbn [copy_points map]; [by rewrite app_nil_r|].
  inversion M; subst.
  destruct (append_spec k (e_set e) (e_sto e) CumulativeTempo (sq_start sq) (sq_now sq) false ps) as (V & _ & _ & G' & S'); [done..|].
  destruct (IH _ H2 G') as (V2 & G2 & S2). rewrite V2, V, <- app_assoc. split; [done|]. split; [done|]. intros S. by apply S2, S'.
Qed.
Lemma move_points_spec k sq es ps : Forall (fun e => made k (e_sto e)) es -> good k ps ->
  vis (move_points grow k sq es ps).1 = vis ps ++ map (delta_point sq) (filter (fun e => has_change (e_sto e)) es) /\
  (move_points grow k sq es ps).2 = map (moved k sq) (filter stays es) /\
  good k (move_points grow k sq es ps).1 /\ (strong k ps -> strong k (move_points grow k sq es ps).1).
Proof.
  revert ps. induction es as [|e r IH]; intros ps M G; cbn [move_points map]; [by rewrite app_nil_r|].
  inversion M; subst.
  destruct (append_spec k (e_set e) (e_sto e) DeltaTempo (sq_last sq) (sq_now sq) true ps) as (V & E2 & M2 & G' & S'); [done..|].
  destruct (append_point grow k (e_set e) (e_sto e) DeltaTempo (sq_last sq) (sq_now sq) true ps) as [ps1 st] eqn:A. cbn in V, E2, M2, G', S'.
  assert (LC : last_change ps1 = has_change (e_sto e)) by (unfold last_change; by rewrite V, last_snoc).
  rewrite LC. rewrite (filter_cons _ e r), (filter_cons (fun x => stays x) e r). destruct (has_change (e_sto e)) eqn:HC.
  - destruct (IH _ H2 G') as (V2 & E3 & G2 & S2). destruct (move_points grow k sq r ps1) as [ps2 r'] eqn:B. cbn in *.
    assert (stays e = true) as -> by (unfold stays; by rewrite HC).
    destruct (decide (True)) as [_|]; [|done]. cbn.
    rewrite V2, V, <- app_assoc. split; [done|]. split; [|split; [done|intros S; by apply S2, S']].
    rewrite E3. unfold moved at 2. by rewrite E2.
  - assert (P : vis (pop ps1) = vis ps).
    { destruct ps1 as [v h]. cbn in V. subst v. by rewrite pop_snoc. }
    assert (Gp : good k (pop ps1)) by (unfold good; by rewrite pop_mem).
    destruct (IH _ H2 Gp) as (V2 & E3 & G2 & S2). destruct (move_points grow k sq r (pop ps1)) as [ps2 r'] eqn:B. cbn in *.
    rewrite V2, P. split; [done|]. split; [|split; [done|intros S; apply S2; unfold strong; rewrite pop_mem; by apply S']].
    assert (SE : stays e = negb (e_refs e =? 0)) by (unfold stays; by rewrite HC). destruct (e_refs e =? 0) eqn:Z; cbn in SE |- *; rewrite SE; cbn.
    + by rewrite E3.
    + rewrite E3. unfold moved at 2. by rewrite E2.
Qed.
Lemma prior_made k set p : Forall (fun e => made k (e_sto e)) (k_prior k) -> prior_of set (k_prior k) = Some p -> made k (e_sto p).
Proof. intros F E. unfold prior_of in E. apply find_some in E as [E _]. rewrite <- elem_of_list_In in E. by apply (proj1 (list.Forall_forall _ _) F). Qed.
Lemma subtract_made k a b : made k a -> made k b -> made k (subtract_swap a b).
Proof.
  intros [D C] [D' C']. destruct a, b; try done. unfold made. cbn in *. split; [|done]. rewrite <- D in D'. injection D' as _ N.
  destruct v, v0; done.
Qed.
Lemma diff_points_spec k sq es ps : Forall (fun e => made k (e_sto e)) es -> Forall (fun e => made k (e_sto e)) (k_prior k) -> good k ps ->
  vis (diff_points grow k sq es ps) = vis ps ++ map (delta_point sq) (omap (difference k) es) /\ good k (diff_points grow k sq es ps) /\
  (strong k ps -> strong k (diff_points grow k sq es ps)).
Proof.
  intros M P. revert ps M. induction es as [|e r IH]; intros ps M G; cbn [diff_points omap list_omap]; [cbn; by rewrite app_nil_r|].
  inversion M; subst. unfold difference at 1. destruct (prior_of (e_set e) (k_prior k)) as [p|] eqn:Pr.
  - cbv zeta. destruct (has_change _) eqn:HC; cbn [map].
    + pose proof (subtract_made k _ _ (prior_made k _ p P Pr) H1) as MS.
      destruct (append_spec k (e_set e) (subtract_swap (e_sto p) (e_sto e)) DeltaTempo (sq_last sq) (sq_now sq) false ps MS G) as (V & _ & _ & G' & S').
      destruct (IH _ H2 G') as (V2 & G2 & S2). rewrite V2, V, <- app_assoc. split; [done|]. split; [done|]. intros S. by apply S2, S'.
    + by apply IH.
  - cbn [map].
    destruct (append_spec k (e_set e) (e_sto e) DeltaTempo (sq_last sq) (sq_now sq) false ps H1 G) as (V & _ & _ & G' & S').
    destruct (IH _ H2 G') as (V2 & G2 & S2). rewrite V2, V, <- app_assoc. split; [done|]. split; [done|]. intros S. by apply S2, S'.
Qed.

(** What one collector reports and what it is afterwards. *)
Definition reports (k : collector) (sq : sequence) : list point :=
  match k_mode k with
  | StatefulSync | LowmemAsync => map (cum_point sq) (k_data k)
  | LowmemSync => map (delta_point sq) (filter (fun e => has_change (e_sto e)) (k_data k))
  | StatefulAsync => map (delta_point sq) (omap (difference k) (k_data k))
  end.
Definition after (k : collector) (sq : sequence) : collector :=
  let 'Collector d f mx md dt pr := k in
  match md with
  | StatefulSync => k
  | LowmemSync => Collector d f mx md (map (moved k sq) (filter stays dt)) pr
  | LowmemAsync => Collector d f mx md [] pr
  | StatefulAsync => Collector d f mx md (kept k) dt
  end.
Lemma collect_points_eq k sq ps :
  collect_points grow k sq ps =
  match k_mode k with
  | StatefulSync => (copy_points grow k sq (k_data k) ps, k)
  | LowmemSync => ((move_points grow k sq (k_data k) ps).1,
                   Collector (k_desc k) (k_fam k) (k_max k) LowmemSync (move_points grow k sq (k_data k) ps).2 (k_prior k))
  | LowmemAsync => (copy_points grow k sq (k_data k) ps, Collector (k_desc k) (k_fam k) (k_max k) LowmemAsync [] (k_prior k))
  | StatefulAsync => (diff_points grow k sq (k_data k) ps, Collector (k_desc k) (k_fam k) (k_max k) StatefulAsync (kept k) (k_data k))
  end.
Proof. destruct k as [d f mx md dt pr]. destruct md; try done. cbn [collect_points k_mode k_data k_desc k_fam k_max k_prior]. by destruct (move_points _ _ _ _ _). Qed.
Lemma after_eq k sq :
  after k sq =
  match k_mode k with
  | StatefulSync => k
  | LowmemSync => Collector (k_desc k) (k_fam k) (k_max k) LowmemSync (map (moved k sq) (filter stays (k_data k))) (k_prior k)
  | LowmemAsync => Collector (k_desc k) (k_fam k) (k_max k) LowmemAsync [] (k_prior k)
  | StatefulAsync => Collector (k_desc k) (k_fam k) (k_max k) StatefulAsync (kept k) (k_data k)
  end.
Proof. by destruct k as [d f mx [] dt pr]. Qed.
Lemma collect_points_spec k sq ps : typed k -> vis ps = [] -> good k ps ->
  vis (collect_points grow k sq ps).1 = reports k sq /\ (collect_points grow k sq ps).2 = after k sq /\
  (strong k ps -> strong k (collect_points grow k sq ps).1).
Proof.
  intros T V G. unfold typed in T. apply list.Forall_app in T as [TD TP].
  change (Forall (fun e => made k (e_sto e)) (k_data k)) in TD. change (Forall (fun e => made k (e_sto e)) (k_prior k)) in TP.
  rewrite collect_points_eq, after_eq. unfold reports. destruct (k_mode k); cbn [fst snd].
  - destruct (copy_points_spec k sq _ ps TD G) as (E & _ & S). by rewrite E, V.
  - destruct (move_points_spec k sq _ ps TD G) as (E & E2 & _ & S). by rewrite E, V, E2.
  - destruct (copy_points_spec k sq _ ps TD G) as (E & _ & S). by rewrite E, V.
  - destruct (diff_points_spec k sq _ ps TD TP G) as (E & _ & S). by rewrite E, V.
Qed.

(** Filling a slice with one element per item. *)
Fixpoint fill {A T B} (z : T) (f : A -> T -> T * B) (l : list A) (s : slice T) : slice T * list B :=
  match l with
  | [] => (s, [])
  | a :: r => let '(s1, b) := realloc grow z (f a) s in let '(s2, bs) := fill z f r s1 in (s2, b :: bs)
  end.
Lemma collect_all_fill ks sq is :
  collect_all grow ks sq is = fill zero_instr (fun k old => let '(ps, k') := collect_points grow k sq (in_points old) in (Instr (k_desc k) ps, k')) ks is.
Proof. revert is. induction ks as [|k r IH]; intros is; cbn; [done|]. unfold collect_one. destruct (realloc _ _ _ is). by rewrite IH. Qed.
Lemma collect_meters_fill ms sq ss :
  collect_meters grow ms sq ss = fill zero_oscope
    (fun m old => let '(is, ks) := collect_all grow (pm_cols m) sq (os_insts old) in (OScope (pm_lib m) is, PMeter (pm_lib m) ks)) ms ss.
Proof. revert ss. induction ms as [|m r IH]; intros ss; cbn; [done|]. unfold collect_for. destruct (realloc _ _ _ ss). by rewrite IH. Qed.

Section fill.
Context {A T B : Type} (z : T) (f : A -> T -> T * B).
Lemma fill_spec {V} (R : A -> T -> Prop) (v : T -> V) (g : A -> V * B) l s :
  (forall i a, l !! i = Some a -> R a z) ->
  (forall i a x, l !! i = Some a -> hid s !! i = Some x -> R a x) ->
  (forall i a x, l !! i = Some a -> R a x -> v (f a x).1 = (g a).1 /\ (f a x).2 = (g a).2) ->
  map v (vis (fill z f l s).1) = map v (vis s) ++ map (fun a => (g a).1) l /\ (fill z f l s).2 = map (fun a => (g a).2) l.
Proof.
  revert s. induction l as [|a r IH]; intros s RZ RH G; cbn [fill map]; [by rewrite app_nil_r|].
  rewrite realloc_eq. cbv beta iota zeta. set (x := default z (head (hid s))).
  assert (X : R a x). { subst x. destruct (hid s) as [|y h] eqn:E; cbn; [by apply (RZ 0%nat)|apply (RH 0%nat); done]. }
  destruct (G 0%nat a x eq_refl X) as [GV GB].
  match goal with |- context [fill z f r ?s1] => set (s1' := s1) end.
  destruct (IH s1') as [E1 E2].
  - intros i b Hb. by apply (RZ (S i)).
  - intros i b y Hb Hy. subst s1'. cbn in Hy. destruct (hid s) as [|y' h] eqn:E.
    + apply lookup_replicate in Hy as [-> _]. by apply (RZ (S i)).
    + apply (RH (S i)); [done|by rewrite ?E].
  - intros i b y Hb. by apply (G (S i)).
  - destruct (fill z f r s1') as [s2 bs]. cbn [fst snd map] in *. rewrite E1, E2. subst s1'. cbn. rewrite map_app, <- app_assoc. cbn. by rewrite GV, GB.
Qed.
Lemma fill_pre l s m w : vis s !! m = Some w -> vis (fill z f l s).1 !! m = Some w.
Proof.
  revert s. induction l as [|c r IHr]; intros s W; cbn [fill]; [done|].
  rewrite realloc_eq. cbv beta iota zeta. match goal with |- context [fill z f r ?s1] => specialize (IHr s1); destruct (fill z f r s1) end.
  cbn [fst] in *. apply IHr. cbn. by apply lookup_app_l_Some.
Qed.
(** The elements after a filling, by position. *)
Lemma fill_mem l s : forall i y, mem (fill z f l s).1 !! i = Some y ->
  (i < length (vis s) /\ vis s !! i = Some y)%nat \/
  (exists a x, i = (length (vis s) + (i - length (vis s)))%nat /\ l !! (i - length (vis s))%nat = Some a /\
     (hid s !! (i - length (vis s))%nat = Some x \/ x = z) /\ y = (f a x).1 /\ vis (fill z f l s).1 !! i = Some y) \/
  (length (vis s) + length l <= i /\ (hid s !! (i - length (vis s)) = Some y \/ y = z))%nat.
Proof.
  revert s. induction l as [|a r IH]; intros s i y; cbn [fill].
  - cbn. unfold mem. intros H. apply lookup_app_Some in H as [H|[L H]]; [left; split; [by eapply lookup_lt_Some|done]|].
    right. right. split; [lia|by left].
  - rewrite realloc_eq. cbv beta iota zeta. set (x := default z (head (hid s))).
    match goal with |- context [fill z f r ?s1] => set (s1' := s1) end.
    specialize (IH s1' i y). destruct (fill z f r s1') as [s2 bs] eqn:F. cbn [fst] in *. intros H. specialize (IH H).
    assert (L1 : length (vis s1') = S (length (vis s))) by (subst s1'; cbn; rewrite app_length; cbn; lia).
    assert (X : hid s !! 0%nat = Some x \/ x = z) by (subst x; destruct (hid s); [by right|by left]).
    assert (HH : forall m w, hid s1' !! m = Some w -> hid s !! S m = Some w \/ w = z).
    { intros m w. subst s1'. cbn. destruct (hid s) as [|y0 h]; [|by left]. intros W. apply lookup_replicate in W as [-> _]. by right. }
    assert (Pre : forall m w, vis s1' !! m = Some w -> vis s2 !! m = Some w).
    { intros m w. pose proof (fill_pre r s1' m w) as P. by rewrite F in P. }
    destruct IH as [[L V]|[(b & w & E & Lb & Hw & Hy & Vy)|[L Hy]]].
    + subst s1'. cbn [vis] in V. pose proof V as V'. apply lookup_app_Some in V as [V|[L2 V]].
      * left. split; [by eapply lookup_lt_Some|done].
      * right. left. rewrite L1 in L. assert (i = length (vis s)) as -> by lia.
        exists a, x. rewrite Nat.sub_diag in *. cbn in V. injection V as <-. split; [lia|]. split; [done|]. split; [done|]. split; [done|]. by apply Pre.
    + right. left. exists b, w. rewrite L1 in *. split; [lia|].
      replace (i - length (vis s))%nat with (S (i - S (length (vis s)))) by lia. split; [done|]. split; [|done].
      destruct Hw as [Hw| ->]; [|by right]. by apply HH.
    + right. right. rewrite L1 in *. cbn. split; [lia|].
      replace (i - length (vis s))%nat with (S (i - S (length (vis s)))) by lia. destruct Hy as [Hy| ->]; [|by right]. by apply HH.
Qed.
Lemma fill_hid l s x : x ∈ hid (fill z f l s).1 -> x ∈ hid s \/ x = z.
Proof.
  revert s. induction l as [|a r IH]; intros s; cbn [fill]; [by left|].
  rewrite realloc_eq. cbv beta iota zeta. match goal with |- context [fill z f r ?s1] => set (s1' := s1) end.
  specialize (IH s1'). destruct (fill z f r s1') as [s2 bs]. cbn [fst] in *. intros H. apply IH in H as [H| ->]; [|by right]. subst s1'. cbn in H.
  destruct (hid s) as [|y h]; [apply elem_of_replicate_inv in H as ->; by right|]. left. by apply elem_of_list_further.
Qed.
Lemma fill_vis l s y : vis s = [] -> y ∈ vis (fill z f l s).1 -> exists a x, a ∈ l /\ (x ∈ hid s \/ x = z) /\ y = (f a x).1.
Proof.
  intros V H. apply elem_of_list_lookup in H as [i H].
  assert (Hm : mem (fill z f l s).1 !! i = Some y) by (unfold mem; by apply lookup_app_l_Some).
  destruct (fill_mem l s i y Hm) as [[L W]|[(a & x & _ & La & Hx & Hy & _)|[L W]]].
  - rewrite V in W. discriminate.
  - exists a, x. split; [by eapply elem_of_list_lookup_2|]. split; [|done]. destruct Hx as [Hx|]; [left; by eapply elem_of_list_lookup_2|by right].
  - exfalso. rewrite V in L. cbn in L.
    assert (Len : length (vis (fill z f l s).1) = (length (vis s) + length l)%nat).
    { clear. revert s. induction l as [|a r IH]; intros s; cbn [fill]; [cbn; lia|]. rewrite realloc_eq. cbv beta iota zeta.
      match goal with |- context [fill z f r ?s1] => set (s1' := s1) end. specialize (IH s1'). destruct (fill z f r s1') as [s2 bs]. cbn [fst] in *.
      rewrite IH. subst s1'. cbn. rewrite app_length. cbn. lia. }
    apply lookup_lt_Some in H. rewrite Len, V in H. cbn in H. lia.
Qed.
End fill.

(** Instruments. *)
Definition slot_ok (k : collector) (n : instr) : Prop := vis (in_points n) = [] /\ good k (in_points n).
Definition put_instr (sq : sequence) (k : collector) (old : instr) : instr * collector :=
  let '(ps, k') := collect_points grow k sq (in_points old) in (Instr (k_desc k) ps, k').
Lemma slot_zero k : slot_ok k zero_instr.
Proof. split; [done|constructor]. Qed.
Lemma put_instr_spec sq k n : typed k -> slot_ok k n ->
  read_instr (put_instr sq k n).1 = (k_desc k, reports k sq) /\ (put_instr sq k n).2 = after k sq.
Proof.
  intros T [V G]. destruct (collect_points_spec k sq (in_points n) T V G) as (E & E2 & _). unfold put_instr.
  destruct (collect_points grow k sq (in_points n)) as [ps k']. cbn in *. unfold read_instr. cbn. by rewrite E, E2.
Qed.
Definition scope_ok (m : pmeter) (s : oscope) : Prop :=
  vis (os_insts s) = [] /\ forall j k n, pm_cols m !! j = Some k -> hid (os_insts s) !! j = Some n -> slot_ok k n.
Definition put_scope (sq : sequence) (m : pmeter) (old : oscope) : oscope * pmeter :=
  let '(is, ks) := collect_all grow (pm_cols m) sq (os_insts old) in (OScope (pm_lib m) is, PMeter (pm_lib m) ks).
Definition reported (m : pmeter) (sq : sequence) : scope * list (descriptor * list point) :=
  (pm_lib m, map (fun k => (k_desc k, reports k sq)) (pm_cols m)).
Definition meter_after (m : pmeter) (sq : sequence) : pmeter := PMeter (pm_lib m) (map (fun k => after k sq) (pm_cols m)).
Lemma put_scope_spec sq m s : Forall typed (pm_cols m) -> scope_ok m s ->
  read_scope (put_scope sq m s).1 = reported m sq /\ (put_scope sq m s).2 = meter_after m sq.
Proof.
  intros T [V H]. unfold put_scope. rewrite collect_all_fill.
  change (fun k old => let '(ps, k') := collect_points grow k sq (in_points old) in (Instr (k_desc k) ps, k')) with (put_instr sq).
  destruct (fill_spec zero_instr (put_instr sq) slot_ok read_instr (fun k => ((k_desc k, reports k sq), after k sq)) (pm_cols m) (os_insts s)) as [E1 E2].
  - intros i a _. apply slot_zero.
  - intros i a x Ha Hx. by apply (H i).
  - intros i a x Ha Hx. apply put_instr_spec; [|done]. by eapply Forall_lookup_1.
  - destruct (fill zero_instr (put_instr sq) (pm_cols m) (os_insts s)) as [is ks]. cbn [fst snd] in *. rewrite V in E1. cbn in E1.
    unfold read_scope, reported, meter_after. cbn. by rewrite E1, E2.
Qed.
Lemma collect_meters_spec ms sq ss : typed_meters ms -> vis ss = [] ->
  (forall i m s, ms !! i = Some m -> hid ss !! i = Some s -> scope_ok m s) ->
  map read_scope (vis (collect_meters grow ms sq ss).1) = map (fun m => reported m sq) ms /\
  (collect_meters grow ms sq ss).2 = map (fun m => meter_after m sq) ms.
Proof.
  intros T V H. rewrite collect_meters_fill.
  change (fun m old => let '(is, ks) := collect_all grow (pm_cols m) sq (os_insts old) in (OScope (pm_lib m) is, PMeter (pm_lib m) ks)) with (put_scope sq).
  destruct (fill_spec zero_oscope (put_scope sq) scope_ok read_scope (fun m => (reported m sq, meter_after m sq)) ms ss) as [E1 E2].
  - intros i a _. split; [done|]. intros j k n _ X. cbn in X. by rewrite lookup_nil in X.
  - intros i a x Ha Hx. by apply (H i).
  - intros i a x Ha Hx. apply put_scope_spec; [|done]. by eapply (Forall_lookup_1 _ _ _ _ T).
  - rewrite E1, E2, V. done.
Qed.

(** Reset. *)
Lemma reset_hid m : hid (mt_scopes (reset m)) = map reset_scope (vis (mt_scopes m)) ++ hid (mt_scopes m).
Proof. done. Qed.
Lemma reset_slots m i s : hid (mt_scopes (reset m)) !! i = Some s -> untouched m ->
  vis (os_insts s) = [] /\ (forall j n, hid (os_insts s) !! j = Some n -> vis (in_points n) = []) /\
  exists s0, mem (mt_scopes m) !! i = Some s0 /\
    forall j n, hid (os_insts s) !! j = Some n -> exists n0, mem (os_insts s0) !! j = Some n0 /\ mem (in_points n) = mem (in_points n0).
Proof.
  rewrite reset_hid. intros H [UV UH]. unfold mem at 1. apply lookup_app_Some in H as [H|[L H]].
  - rewrite list_lookup_fmap in H. destruct (vis (mt_scopes m) !! i) as [s0|] eqn:E; [|done]. cbn in H. injection H as <-.
    pose proof (Forall_lookup_1 _ _ _ _ UV E) as U. cbn. split; [done|]. split.
    + intros j n Hn. apply lookup_app_Some in Hn as [Hn|[_ Hn]].
      * rewrite list_lookup_fmap in Hn. destruct (vis (os_insts s0) !! j); [|done]. by injection Hn as <-.
      * by eapply (Forall_lookup_1 _ _ _ _ U).
    + exists s0. split; [by apply lookup_app_l_Some|]. intros j n Hn. unfold mem at 1. apply lookup_app_Some in Hn as [Hn|[Lj Hn]].
      * rewrite list_lookup_fmap in Hn. destruct (vis (os_insts s0) !! j) as [n0|] eqn:E0; [|done]. injection Hn as <-. exists n0.
        split; [by apply lookup_app_l_Some|]. done.
      * exists n. split; [|done]. rewrite map_length in *. rewrite lookup_app_r; done.
  - rewrite map_length in *. pose proof (Forall_lookup_1 _ _ _ _ UH H) as [U1 U2]. split; [done|]. split.
    + intros j n Hn. by eapply (Forall_lookup_1 _ _ _ _ U2).
    + exists s. split; [rewrite lookup_app_r; done|]. intros j n Hn. exists n. split; [|done]. unfold mem. rewrite U1. done.
Qed.
Lemma reset_ok ms m : untouched m -> fits ms m ->
  forall i p s, ms !! i = Some p -> hid (mt_scopes (reset m)) !! i = Some s -> scope_ok p s.
Proof.
  intros U F i p s Hp Hs. destruct (reset_slots m i s Hs U) as (V & VP & s0 & M0 & Sub). split; [done|].
  intros j k n Hk Hn. split; [by apply (VP j)|]. destruct (Sub j n Hn) as (n0 & Hn0 & E). unfold good. rewrite E.
  apply list.Forall_forall. intros q Hq a Ha D. eapply (F i j a k); [|unfold stream_at; by rewrite Hp|done].
  exists s0, n0, q. done.
Qed.

Definition outcome (res : string) (ms : list pmeter) (sq : sequence) : reading := (res, map (fun m => reported m sq) ms).
Lemma produce_spec res ms sq inout : typed_meters ms -> (forall m, inout = Some m -> untouched m /\ fits ms m) ->
  read (produce grow res ms sq inout).1 = outcome res ms sq /\ (produce grow res ms sq inout).2 = map (fun m => meter_after m sq) ms.
Proof.
  intros T H. unfold produce.
  set (o := match inout with None => zero_metrics | Some m => reset m end).
  destruct (collect_meters_spec ms sq (mt_scopes o) T) as [E1 E2].
  - by destruct inout.
  - intros i m s Hm Hs. destruct inout as [m0|]; [|by cbn in Hs; rewrite lookup_nil in Hs]. destruct (H m0 eq_refl) as [U F].
    eapply (reset_ok ms m0 U F i); done.
  - destruct (collect_meters grow ms sq (mt_scopes o)) as [ss ms']. cbn in *. unfold read, outcome. cbn. by rewrite E1, E2.
Qed.

(** The output can be given back. *)
Lemma fill_instrs_untouched sq ks is : vis is = [] -> untouched_instrs is -> untouched_instrs (collect_all grow ks sq is).1.
Proof.
  intros V U. rewrite collect_all_fill. unfold untouched_instrs. apply list.Forall_forall. intros x X. apply fill_hid in X as [X| ->]; [|done].
  by apply (proj1 (list.Forall_forall _ _) U).
Qed.
Lemma produce_untouched res ms sq inout : (forall m, inout = Some m -> untouched m) -> untouched (produce grow res ms sq inout).1.
Proof.
  intros H. unfold produce. set (o := match inout with None => zero_metrics | Some m => reset m end).
  assert (HU : forall s, s ∈ hid (mt_scopes o) -> vis (os_insts s) = [] /\ untouched_instrs (os_insts s)).
  { intros s Hs. destruct inout as [m|]; [|by apply elem_of_nil in Hs]. apply elem_of_list_lookup in Hs as [i Hs].
    destruct (reset_slots m i s Hs (H m eq_refl)) as (V & VP & _). split; [done|]. apply list.Forall_forall. intros n Hn.
    apply elem_of_list_lookup in Hn as [j Hn]. by apply (VP j). }
  assert (V0 : vis (mt_scopes o) = []) by (by destruct inout).
  rewrite collect_meters_fill.
  change (fun m old => let '(is, ks) := collect_all grow (pm_cols m) sq (os_insts old) in (OScope (pm_lib m) is, PMeter (pm_lib m) ks)) with (put_scope sq).
  pose proof (fun y => fill_vis zero_oscope (put_scope sq) ms (mt_scopes o) y V0) as FV.
  pose proof (fun y => fill_hid zero_oscope (put_scope sq) ms (mt_scopes o) y) as FH.
  destruct (fill zero_oscope (put_scope sq) ms (mt_scopes o)) as [ss ms']. cbn [fst] in *. split; cbn; apply list.Forall_forall; intros y Y.
  - destruct (FV y Y) as (a & x & _ & Hx & ->). unfold put_scope.
    assert (X : vis (os_insts x) = [] /\ untouched_instrs (os_insts x)) by (destruct Hx as [Hx| ->]; [by apply HU|split; [done|constructor]]).
    destruct X as [XV XU]. pose proof (fill_instrs_untouched sq (pm_cols a) (os_insts x) XV XU) as G.
    by destruct (collect_all grow (pm_cols a) sq (os_insts x)).
  - destruct (FH y Y) as [Hx| ->]; [by apply HU|split; [done|constructor]].
Qed.
Lemma produce_own res ms sq inout : typed_meters ms -> (forall m, inout = Some m -> untouched m /\ own ms m) -> own ms (produce grow res ms sq inout).1.
Proof.
  intros T H. unfold produce. set (o := match inout with None => zero_metrics | Some m => reset m end).
  assert (V0 : vis (mt_scopes o) = []) by (by destruct inout).
  (* the aggregations in the emptied output *)
  assert (HO : forall i s, hid (mt_scopes o) !! i = Some s -> vis (os_insts s) = [] /\
    forall j n p a, hid (os_insts s) !! j = Some n -> vis (in_points n) = [] /\
      (p ∈ mem (in_points n) -> pt_agg p = Some a -> exists k, stream_at ms i j = Some k /\ made k a)).
  { intros i s Hs. destruct inout as [m|]; [|cbn in Hs; by rewrite lookup_nil in Hs]. destruct (H m eq_refl) as [U O].
    destruct (reset_slots m i s Hs U) as (V & VP & s0 & M0 & Sub). split; [done|]. intros j n p a Hn. split; [by apply (VP j)|]. intros Hp Ha.
    destruct (Sub j n Hn) as (n0 & Hn0 & E). apply (O i j a). exists s0, n0, p. by rewrite <- E. }
  rewrite collect_meters_fill.
  change (fun m old => let '(is, ks) := collect_all grow (pm_cols m) sq (os_insts old) in (OScope (pm_lib m) is, PMeter (pm_lib m) ks)) with (put_scope sq).
  pose proof (fill_mem zero_oscope (put_scope sq) ms (mt_scopes o)) as FM.
  destruct (fill zero_oscope (put_scope sq) ms (mt_scopes o)) as [ss ms']. cbn [fst] in FM.
  intros i j a (s & n & p & Hs & Hn & Hp & Ha). cbn [fst mt_scopes] in Hs.
  destruct (FM i s Hs) as [[L W]|[(m & x & _ & Hm & Hx & -> & _)|[L Hx]]]; rewrite V0 in *; cbn [length] in *; rewrite ?Nat.sub_0_r in *.
  - discriminate.
  - (* the scope of meter i *)
    assert (X : vis (os_insts x) = [] /\ forall j n p a, hid (os_insts x) !! j = Some n -> vis (in_points n) = [] /\
                  (p ∈ mem (in_points n) -> pt_agg p = Some a -> exists k, stream_at ms i j = Some k /\ made k a)).
    { destruct Hx as [Hx| ->]; [by apply HO|]. split; [done|]. intros j' n' p' a' Hn'. cbn in Hn'. by rewrite lookup_nil in Hn'. }
    destruct X as [XV XH]. unfold put_scope in Hn. rewrite collect_all_fill in Hn.
    change (fun k old => let '(ps, k') := collect_points grow k sq (in_points old) in (Instr (k_desc k) ps, k')) with (put_instr sq) in Hn.
    pose proof (fill_mem zero_instr (put_instr sq) (pm_cols m) (os_insts x)) as FI.
    destruct (fill zero_instr (put_instr sq) (pm_cols m) (os_insts x)) as [is ks]. cbn [fst os_insts] in FI, Hn.
    destruct (FI j n Hn) as [[Lj Wj]|[(k & y & _ & Hk & Hy & -> & _)|[Lj Hy]]]; rewrite XV in *; cbn [length] in *; rewrite ?Nat.sub_0_r in *.
    + discriminate.
    + exists k. assert (SK : stream_at ms i j = Some k) by (unfold stream_at; by rewrite Hm).
      split; [done|].
      assert (Ty : typed k). { pose proof (Forall_lookup_1 _ _ _ _ T Hm) as Tm. by eapply (Forall_lookup_1 _ _ _ _ Tm). }
      assert (Y : vis (in_points y) = [] /\ strong k (in_points y)).
      { destruct Hy as [Hy| ->]; [|split; [done|constructor]]. split; [by apply (XH j y zero_point (new_storage (k_fam k) 0) Hy)|].
        apply list.Forall_forall. intros q Hq b Hb. destruct (proj2 (XH j y q b Hy) Hq Hb) as (k0 & SK0 & M0). rewrite SK in SK0. by injection SK0 as <-. }
      destruct Y as [YV YS]. destruct (collect_points_spec k sq (in_points y) Ty YV (strong_good _ _ YS)) as (_ & _ & S). specialize (S YS).
      unfold put_instr in Hp. destruct (collect_points grow k sq (in_points y)) as [ps k']. cbn in Hp, S.
      by apply (proj1 (list.Forall_forall _ _) S p Hp).
    + destruct Hy as [Hy| ->]; [|cbn in Hp; by apply elem_of_nil in Hp]. by apply (proj2 (XH j n p a Hy)).
  - destruct Hx as [Hx| ->].
    + destruct (HO i s Hx) as [XV XH]. unfold mem in Hn. rewrite XV in Hn. cbn in Hn. by apply (proj2 (XH j n p a Hn)).
    + cbn in Hn. by rewrite lookup_nil in Hn.
Qed.
End grow.

Lemma own_fits ms m : own ms m -> fits ms m.
Proof. intros O i j a k H S D. destruct (O i j a H) as (k' & S' & _ & C). rewrite S in S'. by injection S' as <-. Qed.
Lemma own_grows ms ms' m : grows ms ms' -> own ms m -> own ms' m.
Proof. intros G O i j a H. destruct (O i j a H) as (k & S & D & C). destruct (G i j k S) as (k' & S' & E1 & E2). exists k'. by rewrite <- E1, <- E2. Qed.
