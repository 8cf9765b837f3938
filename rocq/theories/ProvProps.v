(** Properties of the provider: C28, C29, C30 (intervals) and C49. *)
From Coq Require Import ZArith Bool String Lia.
From stdpp Require Import base list option strings gmap.
From Verif Require Import Num Attr View ViewHist Data Prov ProvSpec ProvProofs ProvMore.
Local Open Scope string_scope.
Local Open Scope Z_scope.

(** A history of a new provider, with any options: what all its goroutines did, in the order of the locks. *)
Definition history (L : libs) (os : list prov_option) (t0 : Z) (l : list act) (p : prov) (tr : list (act * res)) : Prop :=
  run L (new_provider L os t0) l = Some (p, tr).

Lemma history_spec L os t0 l p tr : history L os t0 l p tr ->
  inv L p /\ stable (new_provider L os t0) p /\ map fst tr = l /\ forall a r, (a, r) ∈ tr -> fact L p a r.
Proof.
  intros H. destruct (run_spec L l _ _ _ (inv_new L os t0) H) as (I & S & M & F). split; [done|]. split; [done|]. split; [done|].
  intros a r Hin. exact (proj1 (list.Forall_forall _ _) F _ Hin).
Qed.

(** C28: two requests for a meter give the same meter exactly when they name the same scope. *)
Theorem C28_meters L os t0 l p tr : history L os t0 l p tr -> forall s s' i j,
  (AMeter s, RMeter i) ∈ tr -> (AMeter s', RMeter j) ∈ tr -> i = j <-> s = s'.
Proof.
  intros H s s' i j H1 H2. destruct (history_spec _ _ _ _ _ _ H) as (I & _ & _ & F).
  destruct (F _ _ H1) as (m & O1 & <-). destruct (F _ _ H2) as (m' & O2 & <-). split; [intros <-; congruence|]. by apply (iv_libs _ _ I).
Qed.
(** Two requests for an instrument give the same instrument exactly when they are made on the same meter with the same descriptor; [None] is
    the instrument that does nothing. *)
Theorem C28_instruments L os t0 l p tr : history L os t0 l p tr -> forall m m' d d' x y e e',
  (AInst m d, RInst (Some x) e) ∈ tr -> (AInst m' d', RInst (Some y) e') ∈ tr -> x = y <-> m = m' /\ d = d'.
Proof.
  intros H m m' d d' x y e e' H1 H2. destruct (history_spec _ _ _ _ _ _ H) as (I & _ & _ & F).
  destruct (F _ _ H1) as (a & O1 & F1). destruct (F _ _ H2) as (b & O2 & F2). split; [intros <-; by eapply (iv_insts _ _ I)|].
  intros [<- <-]. rewrite O1 in O2. injection O2 as <-. congruence.
Qed.
(** An instrument does nothing exactly when it is synchronous and no reader wants it; so asking again gives the same answer. *)
Theorem C28_nothing L os t0 l p tr : history L os t0 l p tr -> forall i d x e lib,
  (AMeter lib, RMeter i) ∈ tr -> (AInst i d, RInst x e) ∈ tr ->
  x = None <-> synchronous (i_kind d) = true /\ unwanted L (pv_views p) lib d.
Proof.
  intros H i d x e lib H1 H2. destruct (history_spec _ _ _ _ _ _ H) as (I & _ & _ & F).
  destruct (F _ _ H1) as (m & O1 & <-). pose proof (F _ _ H2) as F2. destruct x as [x|]; cbn in F2; destruct F2 as (m2 & O2 & F2); rewrite O1 in O2; injection O2 as <-.
  - split; [done|]. intros [Sy U]. exfalso. exact (mk_want _ _ _ (Forall_lookup_1 _ _ _ _ (iv_meters _ _ I) O1) _ _ F2 Sy U).
  - split; [|done]. intros _. split; apply F2.
Qed.
(** Nothing that is registered moves: in the output of every reader, scopes and streams are only added at the end. *)
Theorem C28_order L os t0 l1 l2 p1 tr1 p2 tr2 : history L os t0 l1 p1 tr1 -> history L os t0 (l1 ++ l2) p2 tr2 ->
  forall r, in_place (layout p1 r) (layout p2 r).
Proof.
  intros H1 H2 r. unfold history in H2. apply run_app in H2 as (p & ta & tb & E1 & E2 & _). unfold history in H1. rewrite E1 in H1. injection H1 as -> ->.
  destruct (run_spec L l1 _ _ _ (inv_new L os t0) E1) as (I & _). destruct (run_spec L l2 _ _ _ I E2) as (_ & S & _).
  intros i lib ss Hl. unfold layout in *. change (map ?f (pv_ordered p1)) with (f <$> pv_ordered p1) in Hl. rewrite list_lookup_fmap in Hl.
  destruct (pv_ordered p1 !! i) as [m|] eqn:O; [|done]. cbn in Hl. injection Hl as <- <-.
  destruct (sb_ord _ _ S i m O) as (m' & O' & M). exists (default [] (collectors <$> mr_comp m' !! r)).
  change (map ?f (pv_ordered p2)) with (f <$> pv_ordered p2). rewrite list_lookup_fmap, O'. cbn. rewrite (st_lib _ _ M). split; [done|].
  intros j s Hs. destruct (mr_comp m !! r) as [c|] eqn:C; [|cbn in Hs; by rewrite lookup_nil in Hs]. cbn in Hs.
  destruct (Forall2_lookup_l _ _ _ _ _ (st_comp _ _ M) C) as (c' & C' & X). rewrite C'. cbn. destruct (proj1 X j s Hs) as (s' & Hs' & G). exists s'. split; [done|].
  unfold ViewRun.grown in G. unfold same_but_description. tauto.
Qed.
(** The streams of a reader are, meter by meter in the order in which the meters were first asked for, those that its views make of the
    instruments created on that meter, in order. *)
Theorem C28_views L os t0 l p tr : history L os t0 l p tr -> forall r v, pv_views p !! r = Some v ->
  (forall i lib, (AMeter lib, RMeter i) ∈ tr -> layout p r !! i = Some (lib, collectors (compile_run L v lib (created i l)))) /\
  (forall i lib ss, layout p r !! i = Some (lib, ss) -> (AMeter lib, RMeter i) ∈ tr).
Proof.
  intros H r v Hv. destruct (history_spec _ _ _ _ _ _ H) as (I & S & _ & F). pose proof (run_compiled L l [] _ _ _ (compiled_new L os t0) H) as C. split.
  - intros i lib Hi. destruct (F _ _ Hi) as (m & O & <-). unfold layout. change (map ?f (pv_ordered p)) with (f <$> pv_ordered p). rewrite list_lookup_fmap, O. cbn [fmap option_fmap option_map].
    rewrite (co_comp _ _ _ C _ _ O). change (map ?f (pv_views p)) with (f <$> pv_views p). rewrite list_lookup_fmap, Hv. done.
  - intros i lib ss Hi. unfold layout in Hi. change (map ?f (pv_ordered p)) with (f <$> pv_ordered p) in Hi. rewrite list_lookup_fmap in Hi.
    destruct (pv_ordered p !! i) as [m|] eqn:O; [|done]. injection Hi as <- <-.
    destruct (run_asked L _ _ _ _ _ _ H O) as [(m0 & H0 & _)|?]; [|done]. cbn in H0. by rewrite lookup_nil in H0.
Qed.
(** The creation of an instrument returns an error exactly when the views of some reader report a conflict. *)
Theorem C28_error L os t0 l i d p tr x e lib : history L os t0 (l ++ [AInst i d]) p tr -> last tr = Some (AInst i d, RInst x e) -> (AMeter lib, RMeter i) ∈ tr ->
  e = true <-> exists v, v ∈ pv_views p /\ (compile L v lib (compile_run L v lib (created i l)) d).2 <> [].
Proof.
  intros H Lt Hi. destruct (history_spec _ _ _ _ _ _ H) as (_ & S & _ & F). destruct (F _ _ Hi) as (m & O & Hl). unfold history in H.
  destruct (run_app L l [AInst i d] _ _ _ H) as (p1 & t1 & t2 & E1 & E2 & ->). pose proof (run_compiled L l [] _ _ _ (compiled_new L os t0) E1) as C. cbn [app] in C.
  pose proof (run_compiled L [AInst i d] l _ _ _ C E2) as C2.
  cbn [run] in E2. destruct (step L p1 (AInst i d)) as [[p2 r]|] eqn:St; [|done]. cbn in E2. injection E2 as <- <-. rewrite last_snoc in Lt. injection Lt as ->.
  destruct p1 as [vs tt ord ms nx la cl calls]. cbn [step] in St. destruct (ord !! i) as [m0|] eqn:O0; [|done]. cbn [mbind option_bind] in St.
  destruct (configure L vs m0 d nx) as [[m' y] e'] eqn:Cf. injection St as <- -> ->. cbn [pv_ordered pv_views] in *.
  destruct (compile_each L vs (mr_lib m0) (mr_comp m0) d) as [[cs idss] es] eqn:Ce. destruct (configure_parts _ _ _ _ _ _ _ _ _ _ _ Ce Cf) as (P1 & _ & P3).
  rewrite list_lookup_insert in O by (by eapply lookup_lt_Some). injection O as <-.
  pose proof (co_comp _ _ _ C _ _ O0) as Cm. rewrite Cm, compile_each_map in Ce. injection Ce as _ _ Ees. rewrite <- P1, Hl in Ees. cbn [pv_views] in Ees. rewrite P3.
  destruct es as [|e0 es].
  - split; [done|]. intros (v & Hv & N). destruct N. apply (proj1 (concat_nil _) Ees). change (map ?f vs) with (f <$> vs). apply elem_of_list_fmap. exists v. done.
  - split; [|done]. intros _. destruct (concat_some (map (fun v => (compile L v lib (compile_run L v lib (created i l)) d).2) vs)) as (l0 & Hl0 & N); [by rewrite Ees|].
    change (map ?f vs) with (f <$> vs) in Hl0. apply elem_of_list_fmap in Hl0 as (v & -> & Hv). exists v. done.
Qed.

Module Ex28.
  Definition L := Libs (fun z => (if (z =? 0) then 160 else z, false)) (fun _ => None).
  Definition os := [WithReader "one" []; WithReader "two" [WithClause [MatchName "gone"; WithAggregation DropAgg]]].
  Definition http := Scope "http" "1" "". Definition db := Scope "db" "" "".
  Definition req := Descriptor "requests" SyncCounter IntKind "" "".
  Definition gone := Descriptor "gone" SyncCounter IntKind "" "".
  Definition acts := [AMeter http; AMeter db; AMeter http; AInst 0 req; AInst 1 req; AInst 0 gone; AInst 0 req].
  Example results : map snd <$> (snd <$> run L (new_provider L os 5) acts) =
    Some [RMeter 0; RMeter 1; RMeter 0; RInst (Some 0%nat) false; RInst (Some 1%nat) false; RInst (Some 2%nat) false; RInst (Some 0%nat) false].
  Proof. vm_compute. reflexivity. Qed.
  (* the second reader does not want [gone], the first does *)
  Example layouts : (fun q => map (fun x => (sc_name x.1, map (fun s => i_name (s_desc s)) x.2)) (layout q.1 1)) <$> run L (new_provider L os 5) acts =
    Some [("http", ["requests"]); ("db", ["requests"])].
  Proof. vm_compute. reflexivity. Qed.
  Example views_so : created 0 acts = [req; gone; req] /\ created 1 acts = [req]. Proof. split; vm_compute; reflexivity. Qed.
  (* the same name with another unit: an error *)
  Example error : last <$> (map snd <$> (snd <$> run L (new_provider L os 5) (acts ++ [AInst 0 (Descriptor "requests" SyncCounter IntKind "" "By")]))) = Some (Some (RInst (Some 4%nat) true)).
  Proof. vm_compute. reflexivity. Qed.
End Ex28.

(** C29.  At every moment of every history: at most one goroutine in Shutdown goes through the readers; the calls it has made are to the
    first readers in order, one call each; when it has returned, every reader has been called once and its result is all their errors. *)
Theorem C29_once L os t0 l p tr : history L os t0 l p tr ->
  (forall t t' c c', pv_closers p !! t = Some c -> pv_closers p !! t' = Some c' -> working c -> working c' -> t = t') /\
  map fst (pv_calls p) `prefix_of` seq 0 (length (pv_views p)) /\
  (forall t es, pv_closers p !! t = Some (Returned es) -> map fst (pv_calls p) = seq 0 (length (pv_views p)) /\ es = concat (map snd (pv_calls p))).
Proof.
  intros H. pose proof (run_down L l _ _ _ (down_new L os t0) H) as D. unfold down in D. destruct (pv_meters p).
  - destruct D as [-> D]. split; [|split].
    + intros t t' c c' Hc _ W _. rewrite (Forall_lookup_1 _ _ _ _ D Hc) in W. done.
    + apply prefix_nil.
    + intros t es Hc. by pose proof (Forall_lookup_1 _ _ _ _ D Hc).
  - destruct D as (t0' & c0 & H0 & P & O).
    assert (U : forall t c, pv_closers p !! t = Some c -> working c -> t = t0').
    { intros t c Hc W. destruct (decide (t = t0')); [done|]. pose proof (O t c Hc n). by destruct c. }
    split; [|split].
    + intros t t' c c' Hc Hc' W W'. rewrite (U _ _ Hc W). by rewrite (U _ _ Hc' W').
    + destruct c0; try done; cbn in P.
      * destruct P as (Le & -> & _). replace (length (pv_views p)) with (next + (length (pv_views p) - next))%nat by lia. rewrite seq_app. by apply prefix_app_r.
      * by destruct P as (-> & _).
    + intros t es Hc. pose proof (U _ _ Hc I) as ->. rewrite Hc in H0. injection H0 as <-. exact P.
Qed.
(** As soon as some Shutdown has taken its first step, one goroutine is the one that goes through the readers; only then is any other told that
    the provider was already shut down. *)
Theorem C29_first L os t0 l p tr : history L os t0 l p tr ->
  ((exists t c, pv_closers p !! t = Some c /\ working c) <-> exists t e, AStep t e ∈ l) /\
  (forall t, pv_closers p !! t = Some AlreadyShutdown -> exists t' c, t' <> t /\ pv_closers p !! t' = Some c /\ working c).
Proof.
  intros H. pose proof (run_down L l _ _ _ (down_new L os t0) H) as D. pose proof (run_meters L l _ _ _ (down_new L os t0) H) as M.
  unfold down in D. destruct (pv_meters p).
  - destruct D as [_ D]. split.
    + split; [intros (t & c & Hc & W); rewrite (Forall_lookup_1 _ _ _ _ D Hc) in W; done|]. intros St. exfalso. assert (Some l0 = None) by (apply M; by right). done.
    + intros t Hc. by pose proof (Forall_lookup_1 _ _ _ _ D Hc).
  - destruct D as (t1 & c1 & H1 & P & O). assert (W : working c1) by (by destruct c1). split.
    + split; [|eauto]. intros _. destruct (proj1 M eq_refl) as [?|?]; done.
    + intros t Hc. exists t1, c1. split; [|done]. intros ->. rewrite Hc in H1. by injection H1 as <-.
Qed.
(** A call that is told so has touched no reader, and it has returned. *)
Theorem C29_later L p t e p' r : step L p (AStep t e) = Some (p', r) -> pv_closers p' !! t = Some AlreadyShutdown ->
  pv_calls p' = pv_calls p /\ pv_closers p !! t = Some Entering /\ forall e', step L p' (AStep t e') = None.
Proof.
  intros E Hc. destruct p as [vs t1 ord ms nx la cl calls]. cbn [step] in E. destruct (cl !! t) as [c|] eqn:C; [|done]. cbn [mbind option_bind] in E.
  assert (Lt : (t < length cl)%nat) by (by eapply lookup_lt_Some). destruct c as [|n es|es|]; try done.
  - destruct ms; injection E as <- <-; cbn in Hc |- *; rewrite list_lookup_insert in Hc by done; [done|]. split; [done|]. split; [done|]. intros e'.
    by rewrite list_lookup_insert.
  - destruct (Nat.ltb n (length vs)); injection E as <- <-; cbn in Hc; by rewrite list_lookup_insert in Hc.
Qed.
(** Nobody waits: a Shutdown that has not returned can go on. *)
Theorem C29_proceeds L p t c e : pv_closers p !! t = Some c -> (c = Entering \/ exists k es, c = Closing k es) -> exists p' r, step L p (AStep t e) = Some (p', r).
Proof.
  intros H C. destruct p as [vs t1 ord ms nx la cl calls]. cbn [step pv_closers] in *. rewrite H. cbn [mbind option_bind].
  destruct C as [->|(k & es & ->)]; [destruct ms|destruct (Nat.ltb k (length vs))]; eauto.
Qed.
(** A meter requested does nothing exactly when a Shutdown has taken its first step before. *)
Theorem C29_noop L os t0 l s p tr r : history L os t0 (l ++ [AMeter s]) p tr -> last tr = Some (AMeter s, r) ->
  r = RNoop <-> exists t e, AStep t e ∈ l.
Proof.
  intros H La. unfold history in H. apply run_app in H as (p1 & tr1 & tr2 & E1 & E2 & ->).
  pose proof (run_meters L l _ _ _ (down_new L os t0) E1) as M. cbn [run] in E2.
  destruct (step L p1 (AMeter s)) as [[p2 r2]|] eqn:S; [|done]. cbn in E2. injection E2 as <- <-. rewrite last_snoc in La. injection La as ->.
  destruct p1 as [vs t1 ord ms nx la cl calls]. cbn [step pv_meters] in *. destruct ms as [ml|].
  - assert (r <> RNoop) by (destruct (find_pair s ml); injection S as _ <-; done). split; [done|]. intros St. exfalso. assert (Some ml = None) by (apply M; by right). done.
  - injection S as _ <-. split; [|done]. intros _. by destruct (proj1 M eq_refl).
Qed.

Module Ex29.
  Import Ex28.
  (* two goroutines: the second begins first *)
  Definition acts := [AMeter http; AShutdown; AShutdown; AStep 1 []; AMeter http; AStep 0 []; AStep 1 ["timeout"]; AStep 1 []; AStep 1 []].
  Example ends : (fun q => (pv_closers q.1, pv_calls q.1)) <$> run L (new_provider L os 5) acts =
    Some ([AlreadyShutdown; Returned ["timeout"]], [(0%nat, ["timeout"]); (1%nat, [])]).
  Proof. vm_compute. reflexivity. Qed.
  Example noop : map snd <$> (snd <$> run L (new_provider L os 5) (take 5 acts)) = Some [RMeter 0; ROk; ROk; ROk; RNoop].
  Proof. vm_compute. reflexivity. Qed.
End Ex29.

(** C30: for each reader, the intervals are chained from the provider's start; with a clock that does not go back, none is negative. *)
Theorem C30_chain L os t0 l p tr r : history L os t0 l p tr -> (forall a, (a, RCrash) ∉ tr) -> (r < length (pv_views p))%nat ->
  chained t0 t0 (sequences r tr).
Proof.
  intros H U Lr. destruct (history_spec _ _ _ _ _ _ H) as (I & S & _). rewrite (sb_views _ _ S) in Lr.
  assert (La : pv_last (new_provider L os t0) !! r = Some t0).
  { cbn in *. rewrite map_length in Lr. destruct (lookup_lt_is_Some_2 _ _ Lr) as [x Hx]. change (map ?f ?l) with (f <$> l). rewrite list_lookup_fmap, Hx. done. }
  exact (run_chained L r l _ _ _ _ H U La).
Qed.
Theorem C30_forward L os t0 l p tr r : history L os t0 l p tr -> ascending t0 (times l) -> Forall (fun s => sq_last s <= sq_now s) (sequences r tr).
Proof.
  intros H A. eapply (run_forward L r l _ _ _ t0 H A). cbn. apply list.Forall_forall. intros x Hx. change (map ?f ?l) with (f <$> l) in Hx.
  apply elem_of_list_fmap in Hx as (? & -> & _). done.
Qed.
Module Ex30.
  Import Ex28.
  Definition acts := [AMeter http; AProduce 0 7; AInst 0 req; AProduce 1 8; AProduce 0 12; AProduce 0 12].
  Example chain : sequences 0 <$> (snd <$> run L (new_provider L os 5) acts) = Some [Sequence 5 5 7; Sequence 5 7 12; Sequence 5 12 12].
  Proof. vm_compute. reflexivity. Qed.
  Example clock : ascending 5 (times acts).
  Proof. vm_compute. repeat split; discriminate. Qed.
End Ex30.

(** C49: a collection crashes exactly when a synchronous instrument that no reader wants was created before. *)
Theorem C49_collects L os t0 l p tr r now : history L os t0 l p tr -> (r < length (pv_views p))%nat ->
  exists p' x, step L p (AProduce r now) = Some (p', x) /\
    (x = RCrash <-> exists i d e, (AInst i d, RInst None e) ∈ tr) /\
    (x <> RCrash -> exists last, x = RSequence (Sequence t0 last now)).
Proof.
  intros H Lr. destruct (history_spec _ _ _ _ _ _ H) as (I & S & _). pose proof (run_crash L l _ _ _ (inv_new L os t0) H) as C.
  rewrite <- (iv_last _ _ I) in Lr. destruct (lookup_lt_is_Some_2 _ _ Lr) as [last Hl].
  pose proof (sb_start _ _ S) as S0. cbn in S0. destruct p as [vs t1 ord ms nx la cl calls]. cbn [step pv_last pv_ordered pv_start] in *. subst t1. rewrite Hl. cbn [mbind option_bind].
  eexists _, _. split; [done|].
  destruct (existsb crashes ord).
  - split; [|done]. split; [|done]. intros _. destruct (proj1 C eq_refl) as [?|?]; done.
  - split; [|eauto]. split; [done|]. intros X. assert (false = true) by (apply C; by right). done.
Qed.
(** The full claim, that a collection never crashes, is false: a view that drops a counter is enough. *)
Theorem C49_never_crashes_refuted : exists L os t0 l p tr a, history L os t0 l p tr /\ (a, RCrash) ∈ tr.
Proof.
  exists Ex28.L, [WithReader "one" [WithClause [MatchName "gone"; WithAggregation DropAgg]]], 5, [AMeter Ex28.http; AInst 0 Ex28.gone; AProduce 0 7].
  eexists _, _, (AProduce 0 7). split; [unfold history; vm_compute; reflexivity|]. right. right. left.
Qed.

(** C55: the options of a provider.  The resource and the performance settings given last count, zeros stand for the documented settings,
    and the readers have their own views, in the order given; nothing later changes them. *)
Theorem C55_options os :
  cf_res (configured os) = last_given resource_given os /\ cf_readers (configured os) = omap reader_given os /\
  cf_perf (configured os) = documented (default (Perf false 0 0 0 0) (last_given performance_given os)).
Proof. exact (configured_spec os). Qed.
Theorem C55_readers L os t0 l p tr : history L os t0 l p tr ->
  pv_start p = t0 /\
  pv_views p = map (fun r => (validate L (new_views r.1 (documented (default (Perf false 0 0 0 0) (last_given performance_given os))) r.2)).1) (omap reader_given os).
Proof.
  intros H. destruct (history_spec _ _ _ _ _ _ H) as (_ & S & _). rewrite (sb_start _ _ S), (sb_views _ _ S). split; [done|]. unfold new_provider. cbn [pv_views].
  destruct (configured_spec os) as (_ & -> & ->). done.
Qed.
Module Ex55.
  Definition os := [WithReader "a" []; WithPerformance (Perf true 0 5 7 0); WithResource "x"; WithReader "b" [WithClause []]; WithResource "y"; WithPerformance (Perf false 3 0 0 9)].
  Example options : configured os = Config (Some "y") [("a", []); ("b", [WithClause []])] (Perf false 3 3000 2000 9).
  Proof. vm_compute. reflexivity. Qed.
  Example limits : map (fun v => (v_name v, length (v_clauses v), c_limit (f_int (v_defaults v SyncCounter)))) (pv_views (new_provider Ex28.L os 5)) = [("a", 0%nat, 2000); ("b", 1%nat, 2000)].
  Proof. vm_compute. reflexivity. Qed.
End Ex55.

Print Assumptions C28_meters.
Print Assumptions C28_instruments.
Print Assumptions C28_nothing.
Print Assumptions C28_order.
Print Assumptions C28_views.
Print Assumptions C28_error.
Print Assumptions C29_once.
Print Assumptions C29_first.
Print Assumptions C29_later.
Print Assumptions C29_proceeds.
Print Assumptions C29_noop.
Print Assumptions C30_chain.
Print Assumptions C30_forward.
Print Assumptions C49_collects.
Print Assumptions C49_never_crashes_refuted.
Print Assumptions C55_options.
Print Assumptions C55_readers.
