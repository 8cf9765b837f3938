(** * C58.  The error of creating an instrument tells the truth. *)
From Coq Require Import ZArith Bool String Ascii Lia.
From stdpp Require Import base list option strings pretty gmap.
From Verif Require Import Num Attr AttrProofs View ViewSpec ViewProofs ViewRun ViewHist ViewMore ViewProps Data Prov ProvSpec ProvProofs ProvMore ProvProps Conf ConfSpec ConfProofs.
Local Open Scope string_scope.

(** The summaries of two streams are the same text exactly when kind, number, aggregation and unit are the same. *)
Theorem C58_summary : forall s t, (short_string s = short_string t <-> facts s = facts t) /\ short_string s = summary s.
Proof. intros s t. rewrite !short_string_spec. split; [apply summary_spec|done]. Qed.

(** The text of a conflict.  [ss] are the streams that it is about: the one the instrument writes to, [s], and the other streams of its name,
    among them all that were there before.  [o] is the output of the instrument that [s] carries.  If the aggregation asked for is not allowed
    the text names the kind and the aggregation; if there are other streams it names the first and the last, and a difference that they have. *)
Theorem C58_text : forall quote L v lib ds d st' ids cs c, (forall d', d' ∈ (ds ++ [d])%list -> no_hint L d') ->
  compile L v lib (compile_run L v lib ds) d = (st', ids, cs) -> c ∈ cs ->
  exists ss s os o, s ∈ ss /\ wanted v lib d os /\ o ∈ os /\ carries s o /\ (exists i, i ∈ ids /\ collectors st' !! i = Some s) /\
  (forall t, t ∈ ss -> i_name (s_desc t) = i_name (s_desc s) /\ t ∈ collectors st') /\
  (forall j t, collectors (compile_run L v lib ds) !! j = Some t -> i_name (s_desc t) = i_name (s_desc s) -> exists t', t' ∈ ss /\ collectors st' !! j = Some t' /\ same_but_description t t') /\
  let text := conflict_error quote (collectors st') (i_kind d) c in
  if allowed (i_kind d) (o_agg o) then tells_difference quote ss text
  else ss = [s] /\ text = tells_incompatible (i_kind d) (blamed (o_agg o)) \/
       exists t, tells_difference quote ss t /\ text = tells_incompatible (i_kind d) (blamed (o_agg o)) ++ "; " ++ t.
Proof.
  intros quote L v lib ds d st' ids cs c NH E Hc.
  assert (Nd : no_hint L d) by (apply NH, elem_of_app; right; left).
  destruct (behaviors_wanted L v lib d Nd) as (os & Wa & B). pose proof E as E0. unfold compile in E. rewrite B in E.
  destruct (place_all_conf _ _ _ _ _ _ (compile_run_wf L v lib ds) E c Hc) as (b & p & i & H1 & H2 & H3 & H4 & H5 & H6 & H7 & H8).
  change (map ?f os) with (f <$> os) in H1. apply list_lookup_fmap_Some in H1 as (o & Ho & ->).
  destruct (C22_streams _ _ _ _ _ _ _ _ Nd E0) as (os' & Wa' & F). rewrite (wanted_unique _ _ _ _ _ Wa' Wa) in F. clear os' Wa'.
  destruct (Forall2_lookup_l _ _ _ _ _ F H2) as (o' & Ho' & s & Hs & Ca). rewrite Ho in Ho'. injection Ho' as <-.
  set (ss := omap (fun j => collectors st' !! j) (cf_duplicates c)).
  destruct (omap_all (fun j => collectors st' !! j) (cf_duplicates c)) as [Ln Lk]; [intros j Hj; destruct (H7 j Hj) as (x & -> & _); eauto|]. fold ss in Ln, Lk.
  assert (Nm : i_name (s_desc s) = o_name o) by apply Ca.
  assert (In : forall j t, j ∈ cf_duplicates c -> collectors st' !! j = Some t -> t ∈ ss) by (intros j t Hj Ht; apply elem_of_list_omap; eauto).
  exists ss, s, os, o. split; [by eapply In|]. split; [done|]. split; [by eapply elem_of_list_lookup_2|]. split; [done|]. split; [exists i; split; [by eapply elem_of_list_lookup_2|done]|]. split; [|split].
  - intros t Ht. apply elem_of_list_omap in Ht as (j & Hj & Ht). destruct (H7 j Hj) as (t' & Ht' & Hn). rewrite Ht in Ht'. injection Ht' as <-. rewrite Nm. split; [exact Hn|by eapply elem_of_list_lookup_2].
  - intros j t Ht Hn. assert (Hj : j ∈ cf_duplicates c) by (apply (H8 j t Ht); rewrite Hn, Nm; done).
    destruct (compile_wf L _ _ _ _ _ _ _ (compile_run_wf L v lib ds) E0) as [_ [X _]]. destruct (X _ _ Ht) as (t' & Ht' & G). exists t'. split; [by eapply In|]. split; [done|].
    unfold grown in G. unfold same_but_description. tauto.
  - assert (Dis : 2 <= length ss -> tells_difference quote ss (duplicate_error quote ss)).
    { intros Hl. apply duplicate_spec; [done|]. intros x y Hx Hy.
      assert (st' = compile_run L v lib (ds ++ [d])%list) as Er by (rewrite compile_run_snoc, E0; done).
      destruct (lookup_lt_is_Some_2 (cf_duplicates c) 0) as [j Hj]; [lia|].
      destruct (lookup_lt_is_Some_2 (cf_duplicates c) (pred (length (cf_duplicates c)))) as [k Hk]; [lia|].
      rewrite head_lookup, (Lk _ _ Hj) in Hx. rewrite last_lookup, Ln, (Lk _ _ Hk) in Hy.
      assert (Ne : j <> k). { intros <-. pose proof (NoDup_lookup _ _ _ _ H5 Hj Hk). lia. }
      destruct (H7 j) as (x' & Hx' & Nx); [by eapply elem_of_list_lookup_2|]. destruct (H7 k) as (y' & Hy' & Ny); [by eapply elem_of_list_lookup_2|]. rewrite Hx in Hx'. rewrite Hy in Hy'. injection Hx' as <-. injection Hy' as <-.
      rewrite Er in Hx, Hy. eapply (C24_distinct L v lib (ds ++ [d])%list j k); eauto. congruence. }
    cbn zeta. unfold conflict_error. fold ss.
    destruct (check_semantic_plain (i_kind d) (to_behavior (i_name d) (f_tempo (v_defaults v (i_kind d))) o)) as [Cs _]; [done|exact (wanted_kind _ _ _ _ _ Wa (elem_of_list_lookup_2 _ _ _ Ho))|].
    rewrite Cs in H4. cbn [snd to_behavior b_agg] in H4. rewrite H4. destruct (allowed (i_kind d) (o_agg o)).
    + cbn [semantic_error]. rewrite String.eqb_refl. apply Dis. rewrite H4 in H6. destruct H6; [lia|done].
    + assert (match o_agg o with AnySumAgg => UndefinedAgg | a => a end = blamed (o_agg o)) as -> by (by destruct (o_agg o)).
      destruct (String.eqb_spec (semantic_error (i_kind d) (Some (blamed (o_agg o)))) "") as [Es|_]; [by apply semantic_some in Es|]. rewrite semantic_spec.
      destruct (decide (2 <= length ss)) as [Hl|Hl].
      * right. exists (duplicate_error quote ss). split; [by apply Dis|]. destruct (String.eqb_spec (duplicate_error quote ss) "") as [Ed|_]; [by apply duplicate_some in Ed|done].
      * left. rewrite duplicate_none by lia. rewrite String.eqb_refl. split; [|done]. pose proof (In _ _ H3 Hs) as Hin.
        destruct ss as [|x [|y r]]; [by apply elem_of_nil in Hin|by apply elem_of_list_singleton in Hin as ->|cbn in Hl; lia].
Qed.

(** The error of a creation, from the provider: there is one exactly when the creation reports one, and when the readers have different names
    it holds, for each reader, the texts of all its conflicts, and nothing else. *)
Theorem C58_error : forall quote L os t0 l p tr i m d lib, history L os t0 l p tr -> pv_ordered p !! i = Some m -> (AMeter lib, RMeter i) ∈ tr ->
  let err := creation_error quote L (pv_views p) (mr_lib m) (mr_comp m) d in
  (forall p' x e, Prov.step L p (AInst i d) = Some (p', RInst x e) -> e = true <-> err <> None) /\
  (NoDup (map v_name (pv_views p)) -> (forall v st' ids cs, v ∈ pv_views p -> compile L v lib (compile_run L v lib (created i l)) d = (st', ids, cs) ->
     default ∅ err !! v_name v = if decide (cs = []) then None else Some (map (conflict_error quote (collectors st') (i_kind d)) cs)) /\
   (forall n, is_Some (default ∅ err !! n) -> exists v, v ∈ pv_views p /\ v_name v = n) /\
   sum_list (map (fun q => length q.2) (map_to_list (default ∅ err))) =
   sum_list (map (fun v => length (compile L v lib (compile_run L v lib (created i l)) d).2) (pv_views p))).
Proof.
  intros quote L os t0 l p tr i m d lib H O Hi err. pose proof (run_compiled L l [] _ _ _ (compiled_new L os t0) H) as C. cbn [app] in C.
  destruct (history_spec _ _ _ _ _ _ H) as (_ & _ & _ & F). destruct (F _ _ Hi) as (m0 & O0 & Hl). rewrite O in O0. injection O0 as <-.
  pose proof (co_comp _ _ _ C _ _ O) as Cm. rewrite Hl in Cm.
  set (f := fun v => compile_run L v lib (created i l)) in *.
  assert (Z : zip (pv_views p) (mr_comp m) = map (fun v => (v, f v)) (pv_views p)).
  { rewrite Cm. clear. induction (pv_views p) as [|v vs IH]; [done|]. cbn. by rewrite IH. }
  set (ts := map (fun v => (v_name v, texts quote L v lib (f v) d)) (pv_views p)).
  assert (G : err = gather ts None).
  { unfold err, creation_error. rewrite creation_gather, Z, map_map, Hl. done. }
  assert (T : forall v, length (texts quote L v lib (f v) d) = length (compile L v lib (f v) d).2).
  { intros v. unfold texts. destruct (compile L v lib (f v) d) as [[st' ids] cs]. by rewrite map_length. }
  split.
  - intros p' x e St. destruct p as [vs tt ord ms nx la cl calls]. cbn [pv_views pv_ordered Prov.step] in *. rewrite O in St. cbn [mbind option_bind] in St.
    destruct (configure L vs m d nx) as [[m' y] e'] eqn:Cf. injection St as _ -> ->.
    destruct (compile_each L vs (mr_lib m) (mr_comp m) d) as [[cs idss] es] eqn:Ce. destruct (configure_parts _ _ _ _ _ _ _ _ _ _ _ Ce Cf) as (_ & _ & ->).
    rewrite Hl, Cm, compile_each_map in Ce. injection Ce as _ _ <-.
    assert (X : concat (map (fun v => (compile L v lib (f v) d).2) vs) = [] <-> err = None).
    { rewrite G, gather_none, concat_nil. split.
      - intros A. split; [done|]. intros n t Ht. unfold ts in Ht. change (map ?g vs) with (g <$> vs) in Ht. apply elem_of_list_fmap in Ht as (v & [= -> ->] & Hv).
        apply nil_length_inv. rewrite T. rewrite (A (compile L v lib (f v) d).2); [done|]. change (map ?g vs) with (g <$> vs). apply elem_of_list_fmap. eauto.
      - intros [_ A] es Hes. change (map ?g vs) with (g <$> vs) in Hes. apply elem_of_list_fmap in Hes as (v & -> & Hv). apply nil_length_inv. rewrite <- T.
        rewrite (A (v_name v) (texts quote L v lib (f v) d)); [done|]. unfold ts. change (map ?g vs) with (g <$> vs). apply elem_of_list_fmap. eauto. }
    destruct (concat _) as [|e0 es]; cbn; split; try done; [|].
    + intros N. destruct N. by apply X.
    + intros _ N. apply X in N. done.
  - intros N. assert (N' : NoDup (map fst ts)) by (unfold ts; rewrite map_map; exact N).
    assert (E0 : forall n, n ∈ map fst ts -> default ∅ (None : builder) !! n = None) by (intros; apply lookup_empty). rewrite G. split; [|split].
    + intros v st' ids cs Hv E.
      rewrite (gather_spec ts None N' E0 (v_name v) (texts quote L v lib (f v) d)); [|unfold ts; change (map ?g (pv_views p)) with (g <$> pv_views p); apply elem_of_list_fmap; eauto].
      unfold texts, f. rewrite E. destruct cs as [|c cs]; [by rewrite decide_True|by rewrite decide_False].
    + intros n [t Ht]. apply gather_dom in Ht as [Ht|Ht]; [cbn [from_option id] in Ht; by rewrite lookup_empty in Ht|]. unfold ts in Ht. change (map ?g (pv_views p)) with (g <$> pv_views p) in Ht.
      apply elem_of_list_fmap in Ht as (v & [= -> ->] & Hv). eauto.
    + rewrite (gather_count ts None N' E0). cbn [from_option id]. rewrite map_to_list_empty. cbn [map sum_list Nat.add]. unfold ts. rewrite map_map. cbn [snd]. f_equal. apply map_ext, T.
Qed.

(** The text of the error shows the first conflict of one of its readers and counts the readers and the conflicts right; it is never "no conflicts".  [first]
    is the reader that the loop over the map happens to see first. *)
Theorem C58_string : forall quote L vs lib cs d m first, creation_error quote L vs lib cs d = Some m -> is_Some (m !! first) ->
  exists c l, m !! first = Some (c :: l) /\
  let total := sum_list (map (fun q => length q.2) (map_to_list m)) in
  error_string first m =
    (if decide (size m = 1) then if decide (l = []) then "" else pretty total ++ " conflicts, e.g. "
     else pretty total ++ " conflicts in " ++ pretty (size m) ++ " readers, e.g. ") ++ first ++ ": " ++ c.
Proof.
  intros quote L vs lib cs d m first E [t Ht]. unfold creation_error in E. rewrite creation_gather in E.
  assert (Hf : t <> []). { eapply (gather_full _ None); [|rewrite E; exact Ht]. intros n u X. cbn [from_option id] in X. by rewrite lookup_empty in X. }
  destruct t as [|c l]; [done|]. exists c, l. split; [done|]. cbn zeta. unfold error_string. rewrite Ht.
  destruct (Nat.eqb_spec (size m) 1); case_decide; try lia; [|by rewrite !app_assoc_s].
  destruct (Nat.eqb_spec (length (c :: l)) 1) as [X|X]; cbn in X; case_decide as Y; subst; try done; [destruct l; [done|cbn in X; lia]|by rewrite !app_assoc_s].
Qed.

(** The error handler is given the error when the instrument is new, and only then. *)
Theorem C58_handled : forall quote L os t0 l p tr i m d, history L os t0 l p tr -> pv_ordered p !! i = Some m ->
  ((exists x e, (AInst i d, RInst (Some x) e) ∈ tr) -> handled quote L (pv_views p) m d = None) /\
  (~ (exists x e, (AInst i d, RInst (Some x) e) ∈ tr) -> handled quote L (pv_views p) m d = creation_error quote L (pv_views p) (mr_lib m) (mr_comp m) d).
Proof.
  intros quote L os t0 l p tr i m d H O. unfold handled. split.
  - intros (x & e & Hx). destruct (history_spec _ _ _ _ _ _ H) as (_ & _ & _ & F). destruct (F _ _ Hx) as (m' & O' & Fp). rewrite O in O'. injection O' as <-. by rewrite Fp.
  - intros N. destruct (find_pair d (mr_desc m)) as [x|] eqn:Fp; [|done]. exfalso. apply N.
    destruct (run_created _ _ _ _ _ _ _ _ _ H O Fp) as [(m0 & H0 & _)|(e & He)]; [cbn in H0; by rewrite lookup_nil in H0|eauto].
Qed.

(** Full statements (do not hold). *)
Module Ex58.
  Definition q (s : string) : string := """" ++ s ++ """".
  Definition L := Libs (fun z => (z, false)) (fun _ => Some (Hint "" "sum" "" 0 0)).
  Definition v := new_views "r" (Perf false 0 0 0 0) [].
  Definition lib := Scope "lib" "" "".
  Definition c (k : kind) (u : string) := Descriptor "x" k IntKind "" u.
  Definition say (v : views) (ds : list descriptor) (d : descriptor) : list string :=
    let '(st, _, cs) := compile L v lib (compile_run L v lib ds) d in map (conflict_error q (collectors st) (i_kind d)) cs.
  Example two : say v [c SyncCounter "a"] (c SyncCounter "b") = ["name ""x"" conflicts SyncCounter-Int64-MonotonicSum-a, SyncCounter-Int64-MonotonicSum-b"].
  Proof. vm_compute. reflexivity. Qed.
  Example many : say v [c SyncCounter "a"; c SyncCounter "b"; c AsyncGauge ""] (c SyncHistogram "b") =
    ["name ""x"" conflicts SyncCounter-Int64-MonotonicSum-a, SyncHistogram-Int64-Histogram-b and 2 more"].
  Proof. vm_compute. reflexivity. Qed.
  Definition w := new_views "r" (Perf false 0 0 0 0) [WithClause [MatchKind SyncHistogram; WithAggregation GaugeAgg; WithName "x"; WithKeys (Some ["k"])]].
  Definition y := Descriptor "y" SyncHistogram IntKind "" "".
  Example both : say w [Descriptor "x" SyncUpDownCounter IntKind "" ""] y =
    ["SyncHistogram instrument incompatible with Gauge aggregation; name ""x"" conflicts SyncUpDownCounter-Int64-NonMonotonicSum, SyncHistogram-Int64-Histogram (original ""y"")"].
  Proof. vm_compute. reflexivity. Qed.
  Example filters : say (new_views "r" (Perf false 0 0 0 0) [WithClause [MatchName "x"; WithKeys (Some ["k"])]; WithClause [MatchName "y"; WithName "x"]]) [c SyncCounter ""] (Descriptor "y" SyncCounter IntKind "" "") =
    ["name ""x"" has conflicts: different attribute filters"].
  Proof. vm_compute. reflexivity. Qed.
  Example hints : forall d', d' ∈ [c SyncCounter "a"; c SyncCounter "b"; c AsyncGauge ""; c SyncHistogram "b"] -> no_hint L d'.
  Proof. intros d' H. left. repeat (apply elem_of_cons in H as [->|H]; [cbn; tauto|]). by apply elem_of_nil in H. Qed.
  (** A provider with three readers, two of which find fault with the second instrument. *)
  Definition os := [WithReader "r" []; WithReader "s" [WithDefaultAgg (fun _ => DropAgg)]; WithReader "t" []].
  Definition acts := [AMeter lib; AInst 0 (c SyncCounter "a")].
  Definition err (os : list prov_option) (d : descriptor) : option (builder * builder) :=
    '(p, _) ← Prov.run L (new_provider L os 0) acts; m ← pv_ordered p !! 0; Some (creation_error q L (pv_views p) (mr_lib m) (mr_comp m) d, handled q L (pv_views p) m d).
  Definition text := "name ""x"" conflicts SyncCounter-Int64-MonotonicSum-a, SyncCounter-Int64-MonotonicSum-b".
  Example error_case : (fun b => map_to_list (default ∅ b.1)) <$> err os (c SyncCounter "b") = Some [("t", [text]); ("r", [text])].
  Proof. vm_compute. reflexivity. Qed.
  Example string_case : (fun b => (error_string "t" (default ∅ b.1), map_to_list (default ∅ b.2))) <$> err os (c SyncCounter "b") =
    Some ("2 conflicts in 2 readers, e.g. t: " ++ text, [("t", [text]); ("r", [text])]).
  Proof. vm_compute. reflexivity. Qed.
  Example again_case : err os (c SyncCounter "a") = Some (None, None).
  Proof. vm_compute. reflexivity. Qed.
End Ex58.
(** The text names the aggregation that was asked for: not when a view asks for the sum of a gauge. *)
Theorem C58_sum_refuted : exists v d, asked v d <$> v_clauses v = [AnySumAgg] /\ Ex58.say v [] d = [tells_incompatible (i_kind d) UndefinedAgg] /\
  allowed (i_kind d) AnySumAgg = false.
Proof.
  exists (new_views "r" (Perf false 0 0 0 0) [WithClause [WithAggregation AnySumAgg]]), (Ex58.c SyncGauge ""). split_and!; vm_compute; reflexivity.
Qed.
(** The text is about the instrument being created: not when the instrument was created before the last one of its name. *)
Theorem C58_about_refuted : exists d e f, Ex58.say Ex58.v [d; e; f] e = ["name ""x"" conflicts SyncCounter-Int64-MonotonicSum-a, SyncCounter-Int64-MonotonicSum-c and 1 more"] /\
  i_unit e = "b".
Proof. exists (Ex58.c SyncCounter "a"), (Ex58.c SyncCounter "b"), (Ex58.c SyncCounter "c"). split; vm_compute; reflexivity. Qed.
(** The difference in the text is one that keeps the streams apart: not always.  A counter and a histogram that are both summed share a stream; when
    their key filters keep them apart, the text blames their kinds. *)
Theorem C58_reason_refuted : exists v w d e,
  Ex58.say v [d] e = ["name ""x"" conflicts SyncCounter-Int64-MonotonicSum, SyncHistogram-Int64-MonotonicSum (original ""y"")"] /\
  Ex58.say w [d] e = [] /\ length (collectors (compile_run Ex58.L w Ex58.lib [d; e])) = 1.
Proof.
  pose (v j := new_views "r" (Perf false 0 0 0 0) [WithClause [MatchName "x"; WithKeys (Some ["k"])]; WithClause [MatchName "y"; WithName "x"; WithAggregation AnySumAgg; WithKeys (Some [j])]]).
  exists (v "j"), (v "k"), (Ex58.c SyncCounter ""), (Descriptor "y" SyncHistogram IntKind "" "").
  split_and!; vm_compute; reflexivity.
Qed.
(** Also with hints: two streams that differ in nothing are said to have different attribute filters. *)
Theorem C58_hint_refuted : exists d, Ex58.say Ex58.v [d] d = ["name ""x"" has conflicts: different attribute filters"] /\
  s_keys <$> collectors (compile_run Ex58.L Ex58.v Ex58.lib [d; d]) = [None; None].
Proof. exists (Descriptor "x" SyncCounter IntKind "{}" ""). split; vm_compute; reflexivity. Qed.
(** The error holds the conflicts of every reader: not when two readers have the same name. *)
Theorem C58_names_refuted : exists os, (fun b => map_to_list (default ∅ b.1)) <$> Ex58.err os (Ex58.c SyncCounter "b") = Some [("r", [Ex58.text])] /\
  length (cf_readers (configured os)) = 2 /\
  (fun b => error_string "r" (default ∅ b.1)) <$> Ex58.err os (Ex58.c SyncCounter "b") = Some ("r: " ++ Ex58.text).
Proof. exists [WithReader "r" []; WithReader "r" []]. split_and!; vm_compute; reflexivity. Qed.

Print Assumptions C58_summary.
Print Assumptions C58_text.
Print Assumptions C58_error.
Print Assumptions C58_string.
Print Assumptions C58_handled.
Print Assumptions C58_sum_refuted.
Print Assumptions C58_about_refuted.
Print Assumptions C58_reason_refuted.
Print Assumptions C58_hint_refuted.
Print Assumptions C58_names_refuted.
